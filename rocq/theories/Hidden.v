(** * Comments and other unseen parts of html *)
From Coq Require Import String List Arith NArith ZArith Bool Lia.
From Verif Require Import PyStr PyStrFacts GNames Regex RegexFacts RegexRun Rules Utils Res Entities HtmlTools HtmlToolsFacts HtmlTok HtmlTokFacts.
From Verif Require Import HtmlParser Safety Spec2 TreeFacts Spec10 TokRun TagTok StripRun Spec11 CleanRun CleanDoc Spec29 Spelling HtmlBase Html2X SpellDoc Spec30.
Import ListNotations.
Open Scope N_scope.

(** ** unseen parts on one line *)
Definition hush (x : str) : bool := forallb (fun c => negb (existsb (N.eqb c) [10; 60; 62])) x.
Inductive unseen1 : str -> Prop :=
| comment_unseen1 x w : hush x = true -> hush w = true -> forallb is_space w = true -> unseen1 ($ "<!--" ++ x ++ $ "--" ++ w ++ $ ">")
| doctype_unseen1 k x : cased ($ "doctype") k -> hush x = true -> unseen1 ($ "<!" ++ k ++ x ++ $ ">")
| instruction_unseen1 x : hush x = true -> unseen1 ($ "<?" ++ x ++ $ ">")
| declaration_unseen1 x : hush x = true -> match x with [] => True | c :: _ => c <> 45 /\ c <> 91 end -> unseen1 ($ "<!" ++ x ++ $ ">")
| condition_unseen1 n k x w : In n [$ "if"; $ "else"; $ "endif"] -> cased n k -> hush x = true -> name_ends x -> hush w = true -> forallb is_space w = true ->
    unseen1 ($ "<![" ++ k ++ x ++ $ "]" ++ w ++ $ ">")
| section_unseen1 n k x v w : In n [$ "cdata"; $ "temp"; $ "ignore"; $ "include"; $ "rcdata"] -> cased n k -> hush x = true -> name_ends x ->
    hush v = true -> forallb is_space v = true -> hush w = true -> forallb is_space w = true -> unseen1 ($ "<![" ++ k ++ x ++ $ "]" ++ v ++ $ "]" ++ w ++ $ ">").
Inductive unseens1 : str -> Prop :=
| unseens1_nil : unseens1 []
| unseens1_more h t : unseen1 h -> unseens1 t -> unseens1 (h ++ t).
Fixpoint fits_more1 (b : bool) (l : list part) (s : str) : Prop :=
  match l with
  | [] => unseens1 s /\ (b = false -> s = [])
  | Ws :: r => exists w u, forallb is_space w = true /\ s = w ++ u /\ fits_more1 (b && is_nil w) r u
  | Txt w :: r => exists u, s = w ++ u /\ fits_more1 false r u
  | p :: r => exists h v u, unseens1 h /\ (b = false -> h = []) /\ part_written p v /\ s = h ++ v ++ u /\ fits_more1 (block_part p) r u
  end.

(** ** tokens *)
Lemma first_gt : forall (w x r y : str), ~ In 62 w -> ~ In 62 x -> w ++ 62 :: r = x ++ 62 :: y -> w = x /\ r = y.
Proof.
  induction w as [|c w IH]; intros x r y W X E; destruct x as [|d x]; cbn [app] in E.
  - injection E as E. auto.
  - exfalso. injection E as E _. apply X. left. symmetry. exact E.
  - exfalso. injection E as E _. apply W. left. exact E.
  - injection E as -> E. destruct (IH x r y) as [-> ->]; auto; intro I; [apply W|apply X]; right; exact I.
Qed.
Lemma close_match : forall t x, try_at commentclose_re false [] t = Some x -> exists w r, ~ In 62 w /\ t = w ++ 62 :: r /\ skipn (List.length (mtxt x)) t = r.
Proof.
  intros t x H. apply try_at_Mt in H as (s' & M & E & _). unfold commentclose_re in M. cbn [seqs lit L] in M. unfold c1 in M.
  assert (K : exists z r, forallb is_space z = true /\ t = 45 :: 45 :: z ++ 62 :: r /\ rest s' = r).
  { clear E. inversion M as [| |? ? ? s1 ? M1 M2| | | | | | | | | | |]; subst. inversion M1 as [| |? ? ? s0 ? M3 M4| | | | | | | | | | |]; subst.
    inversion M3 as [|? ? ? ? ? P1| | | | | | | | | | | |]; subst. inversion M4 as [|? ? ? ? ? P2| | | | | | | | | | | |]; subst.
    inversion M2 as [| |? ? ? s2 ? M5 M6| | | | | | | | | | |]; subst. unfold sps in M5. apply Mt_star_chr in M5 as (w & W1 & _ & _ & W4).
    inversion M6 as [|? ? ? ? ? P3| | | | | | | | | | | |]; subst. cbn [rest] in W1. apply N.eqb_eq in P1, P2, P3. subst. exists w. eexists. split; [exact W4|]. split; reflexivity. }
  destruct K as (z & r & Z & -> & R). exists (45 :: 45 :: z), r. split; [|split; [reflexivity|]].
  - intros [I|[I|I]]; [discriminate|discriminate|]. rewrite forallb_forall in Z. specialize (Z _ I). discriminate Z.
  - rewrite R in E. rewrite E at 1. rewrite skipn_app, skipn_all, Nat.sub_diag. reflexivity.
Qed.
Definition closes (r : regex) : Prop := forall t x, try_at r false [] t = Some x -> exists w r, ~ In 62 w /\ t = w ++ 62 :: r /\ skipn (List.length (mtxt x)) t = r.
Lemma blank62 : forall z, forallb is_space z = true -> ~ In 62 z.
Proof. intros z Z I. rewrite forallb_forall in Z. specialize (Z _ I). discriminate Z. Qed.
Lemma ms_match : closes msmarkedsectionclose_re.
Proof.
  intros t x H. apply try_at_Mt in H as (s' & M & E & _). unfold msmarkedsectionclose_re in M. cbn [seqs] in M. unfold c1 in M.
  assert (K : exists z r, forallb is_space z = true /\ t = 93 :: z ++ 62 :: r /\ rest s' = r).
  { clear E. inversion M as [| |? ? ? s1 ? M1 M2| | | | | | | | | | |]; subst.
    inversion M1 as [|? ? ? ? ? P1| | | | | | | | | | | |]; subst.
    inversion M2 as [| |? ? ? s2 ? M5 M6| | | | | | | | | | |]; subst. unfold sps in M5. apply Mt_star_chr in M5 as (w & W1 & _ & _ & W4).
    inversion M6 as [|? ? ? ? ? P3| | | | | | | | | | | |]; subst. cbn [rest] in W1. apply N.eqb_eq in P1, P3. subst. exists w. eexists. split; [exact W4|]. split; reflexivity. }
  destruct K as (z & r & Z & -> & R). exists (93 :: z), r. split; [|split; [reflexivity|]].
  - intros [I|I]; [discriminate|]. exact (blank62 z Z I).
  - rewrite R in E. rewrite E at 1. rewrite skipn_app, skipn_all, Nat.sub_diag. reflexivity.
Qed.
Lemma marked_match : closes markedsectionclose_re.
Proof.
  intros t x H. apply try_at_Mt in H as (s' & M & E & _). unfold markedsectionclose_re in M. cbn [seqs] in M. unfold c1 in M.
  assert (K : exists v z r, forallb is_space v = true /\ forallb is_space z = true /\ t = 93 :: v ++ 93 :: z ++ 62 :: r /\ rest s' = r).
  { clear E. inversion M as [| |? ? ? s1 ? M1 M2| | | | | | | | | | |]; subst.
    inversion M1 as [|? ? ? ? ? P1| | | | | | | | | | | |]; subst.
    inversion M2 as [| |? ? ? s2 ? M5 M6| | | | | | | | | | |]; subst. unfold sps in M5. apply Mt_star_chr in M5 as (w & W1 & _ & _ & W4).
    inversion M6 as [| |? ? ? s3 ? M7 M8| | | | | | | | | | |]; subst. inversion M7 as [|? ? ? ? ? P2| | | | | | | | | | | |]; subst.
    inversion M8 as [| |? ? ? s4 ? M9 M10| | | | | | | | | | |]; subst. unfold sps in M9. apply Mt_star_chr in M9 as (z & Z1 & _ & _ & Z4).
    inversion M10 as [|? ? ? ? ? P3| | | | | | | | | | | |]; subst. cbn [rest] in W1, Z1. apply N.eqb_eq in P1, P2, P3. subst. exists w, z. eexists. split; [exact W4|]. split; [exact Z4|]. split; reflexivity. }
  destruct K as (v & z & r & V & Z & -> & R). exists (93 :: v ++ 93 :: z), r. split; [|split; [cbn [app]; rewrite <- app_assoc; reflexivity|]].
  - intros [I|I]; [discriminate|]. apply in_app_or in I as [I|[I|I]]; [exact (blank62 v V I)|discriminate|exact (blank62 z Z I)].
  - rewrite R in E. rewrite E at 1. rewrite skipn_app, skipn_all, Nat.sub_diag. reflexivity.
Qed.
Lemma close_here : forall w y, forallb is_space w = true -> try_at commentclose_re false [] (45 :: 45 :: w ++ 62 :: y) <> None.
Proof.
  intros w y W. unfold try_at, commentclose_re. cbn [seqs]. rewrite m_seq. change (45 :: 45 :: w ++ 62 :: y) with ($ "--" ++ w ++ 62 :: y). rewrite m_lit, m_seq.
  unfold sps, sp. erewrite (star_take is_space w (62 :: y)); [discriminate|exact W|reflexivity|]. unfold c1. rewrite m_chr. reflexivity.
Qed.
Lemma ms_here : forall w y, forallb is_space w = true -> try_at msmarkedsectionclose_re false [] (93 :: w ++ 62 :: y) <> None.
Proof.
  intros w y W. unfold try_at, msmarkedsectionclose_re. cbn [seqs]. rewrite m_seq, m_c1, m_seq.
  unfold sps, sp. erewrite (star_take is_space w (62 :: y)); [discriminate|exact W|reflexivity|]. unfold c1. rewrite m_chr. reflexivity.
Qed.
Lemma marked_here : forall v w y, forallb is_space v = true -> forallb is_space w = true -> try_at markedsectionclose_re false [] (93 :: v ++ 93 :: w ++ 62 :: y) <> None.
Proof.
  intros v w y V W. unfold try_at, markedsectionclose_re. cbn [seqs]. rewrite m_seq, m_c1, m_seq.
  unfold sps, sp. erewrite (star_take is_space v (93 :: w ++ 62 :: y)); [discriminate|exact V|reflexivity|]. rewrite m_seq, m_c1, m_seq.
  erewrite (star_take is_space w (62 :: y)); [reflexivity|exact W|reflexivity|]. unfold c1. rewrite m_chr. reflexivity.
Qed.
Lemma search_gen : forall r tail, closes r -> (forall y, try_at r false [] (tail ++ 62 :: y) <> None) -> tail <> [] -> ~ In 62 tail -> forall x y, ~ In 62 x -> exists b m, search r (x ++ tail ++ 62 :: y) = Some (b, m, y).
Proof.
  intros r tail C H0 T0 T.
  assert (G : forall (x w r y : str), ~ In 62 x -> ~ In 62 w -> x ++ tail ++ 62 :: y = w ++ 62 :: r -> r = y).
  { intros x w r0 y X W E. destruct (first_gt w (x ++ tail) r0 y) as [_ ->]; auto.
    - intro I. apply in_app_or in I as [I|I]; auto.
    - rewrite <- app_assoc. symmetry. exact E. }
  induction x as [|c x IH]; intros y H.
  - cbn [app]. destruct (tail ++ 62 :: y) as [|c0 t0] eqn:ET; [destruct tail; discriminate|]. cbn [search]. rewrite <- ET. destruct (try_at r false [] (tail ++ 62 :: y)) as [m|] eqn:E; [|exfalso; exact (H0 y E)].
    destruct (C _ _ E) as (w & r0 & W & T1 & R). rewrite R. exists [], m. rewrite (G [] w r0 y H W T1). reflexivity.
  - cbn [app search]. destruct (try_at r false [] (c :: x ++ tail ++ 62 :: y)) as [m|] eqn:E.
    + destruct (C _ _ E) as (w & r0 & W & T1 & R). rewrite R. exists [], m. rewrite (G (c :: x) w r0 y H W T1). reflexivity.
    + destruct (IH y) as (b & m & ->); [intro I; apply H; right; exact I|]. eexists _, _. reflexivity.
Qed.
Lemma search_close : forall x w y, ~ In 62 x -> forallb is_space w = true -> exists b m, search commentclose_re (x ++ 45 :: 45 :: w ++ 62 :: y) = Some (b, m, y).
Proof.
  intros x w y X W. apply (search_gen commentclose_re (45 :: 45 :: w) close_match); [intro z; apply (close_here w z W)|discriminate| |exact X].
  intros [I|[I|I]]; [discriminate|discriminate|exact (blank62 w W I)].
Qed.
Lemma search_ms : forall x w y, ~ In 62 x -> forallb is_space w = true -> exists b m, search msmarkedsectionclose_re (x ++ 93 :: w ++ 62 :: y) = Some (b, m, y).
Proof.
  intros x w y X W. apply (search_gen msmarkedsectionclose_re (93 :: w) ms_match); [intro z; apply (ms_here w z W)|discriminate| |exact X].
  intros [I|I]; [discriminate|exact (blank62 w W I)].
Qed.
Lemma search_marked : forall x v w y, ~ In 62 x -> forallb is_space v = true -> forallb is_space w = true -> exists b m, search markedsectionclose_re (x ++ 93 :: v ++ 93 :: w ++ 62 :: y) = Some (b, m, y).
Proof.
  intros x v w y X V W. pose proof (search_gen markedsectionclose_re (93 :: v ++ 93 :: w) marked_match) as G.
  destruct (G ltac:(intro z; cbn [app]; rewrite <- app_assoc; apply (marked_here v w z V W)) ltac:(discriminate)) with (x := x) (y := y) as (b & m & E).
  - intros [I|I]; [discriminate|]. apply in_app_or in I as [I|[I|I]]; [exact (blank62 v V I)|discriminate|exact (blank62 w W I)].
  - exact X.
  - exists b, m. rewrite <- E. f_equal. cbn [app]. rewrite <- app_assoc. reflexivity.
Qed.
(** ** the names of sections *)
Definition decl_c (c : N) : bool := (c =? 45) || (c =? 95) || (c =? 46) || is_alnum c.
Lemma name_ends_stop : forall x y, name_ends x -> stop decl_c (x ++ 93 :: y).
Proof.
  intros [|c x] y H; [reflexivity|]. cbn [app stop]. cbn [name_ends existsb] in H. rewrite !orb_false_iff in H. destruct H as [[H1 H2] [H3 [H4 [H5 _]]]].
  unfold decl_c. rewrite H3, H4, H5. cbn [orb]. unfold is_alnum. change (is_dec c) with (dec c). rewrite H2, orb_false_r.
  unfold letter, lower_letter in H1. unfold is_alpha. rewrite orb_comm. exact H1.
Qed.
Lemma decl_name : forall k t, k <> [] -> cname k = true -> stop decl_c t ->
  exists z r, t = z ++ r /\ forallb is_space z = true /\ stop is_space r /\ match_at declname_re (k ++ t) 0 = Some (mkm (k ++ z) [(G_hp_tag, k)]).
Proof.
  intros k t K C T. assert (SP : exists z r, t = z ++ r /\ forallb is_space z = true /\ stop is_space r).
  { clear. induction t as [|c t (z & r & -> & Z & R)]; [exists [], []; repeat split|]. destruct (is_space c) eqn:E.
    - exists (c :: z), r. split; [reflexivity|]. split; [cbn [forallb]; rewrite E; exact Z|exact R].
    - exists [], (c :: z ++ r). split; [reflexivity|]. split; [reflexivity|exact E]. }
  destruct SP as (z & r & -> & Z & R). exists z, r. split; [reflexivity|]. split; [exact Z|]. split; [exact R|].
  unfold match_at. cbn [firstn rev skipn]. rewrite app_assoc. apply try_at_hit. unfold declname_re. rewrite m_seq, m_grp, m_seq. rewrite <- app_assoc. destruct k as [|c k]; [congruence|].
  cbn [cname] in C. apply andb_true_iff in C as [C1 C2]. cbn [app].
  assert (A : is_alpha c = true) by (unfold letter, lower_letter in C1; unfold is_alpha; rewrite orb_comm; exact C1).
  rewrite m_chr, A. change (RChr (fun c0 : char => (c0 =? 45) || (c0 =? 95) || (c0 =? 46) || is_alnum c0)) with (RChr decl_c).
  apply (star_take decl_c k (z ++ r)).
  - revert C2. apply forallb_impl. intros d D. unfold cchar in D. unfold decl_c, is_alnum. change (is_dec d) with (dec d).
    replace (is_alpha d) with (letter d) by (unfold letter, lower_letter, is_alpha; apply orb_comm). destruct (letter d), (dec d), (d =? 45), (d =? 95), (d =? 46); try reflexivity; discriminate D.
  - exact T.
  - cbn [bef rest caps]. unfold sps, sp. apply (star_take is_space z r); [exact Z|exact R|].
    f_equal. f_equal; [cbn [rev app]; rewrite rev_app_distr, <- !app_assoc; reflexivity|]. f_equal. f_equal. apply (firstn_app_exact (c :: k)).
Qed.
Lemma section_step : forall k t n, k <> [] -> cname k = true -> lower k = n -> stop decl_c t -> In 93 t ->
  one None ($ "<![" ++ k ++ t) =
    (let close r := match search r (k ++ t) with None => Stop [] | Some (_, _, a) => Next [] a None end in
     if in_list [$ "temp"; $ "cdata"; $ "ignore"; $ "include"; $ "rcdata"] n then close markedsectionclose_re
     else if in_list [$ "if"; $ "else"; $ "endif"] n then close msmarkedsectionclose_re else Raise).
Proof.
  intros k t n K C Ln T B. destruct (decl_name k t K C T) as (z & r & E & Z & R & M).
  assert (NE : Nat.eqb (List.length (k ++ z)) (List.length (k ++ t)) = false).
  { apply Nat.eqb_neq. intro X. subst t. rewrite !app_length in X. destruct r as [|c r]; [|cbn [List.length] in X; lia].
    rewrite app_nil_r in B. rewrite forallb_forall in Z. specialize (Z _ B). discriminate Z. }
  unfold one. cbn [app L]. change (60 =? 60) with true. cbv iota. cbn [lt_step]. change (is_alpha 33) with false. change (33 =? 47) with false. cbv iota.
  change (startswith ($ "<!--") (60 :: 33 :: 91 :: k ++ t)) with false. change (33 =? 63) with false. change (33 =? 33) with true. cbv iota.
  unfold parse_html_declaration. change (startswith ($ "<![") (60 :: 33 :: 91 :: k ++ t)) with true. cbv iota. unfold parse_marked_section. cbn [skipn].
  rewrite M. cbn [mtxt]. rewrite NE. change (group0 G_hp_tag (mkm (k ++ z) [(G_hp_tag, k)])) with k. rewrite Ln.
  destruct (k ++ t) as [|c0 t0] eqn:E0; [destruct k; [congruence|discriminate]|]. reflexivity.
Qed.
Lemma name62 : forall k, cname k = true -> ~ In 62 k.
Proof. intros k C I. apply plain_cname in C. rewrite forallb_forall in C. specialize (C _ I). discriminate C. Qed.
Lemma section_name : forall n k l, In n l -> forallb name_ok l = true -> cased n k -> k <> [] /\ cname k = true /\ lower k = n.
Proof.
  intros n k l I A K. rewrite forallb_forall in A. specialize (A n I). split; [intros ->; inversion K; subst; discriminate A|]. split; [exact (cased_name n k A K)|].
  apply lower_cased; [|exact K]. apply name_ok_chars in A. tauto.
Qed.
Lemma quiet62 : forall x, hush x = true -> ~ In 62 x.
Proof. intros x H I. unfold hush in H. rewrite forallb_forall in H. specialize (H _ I). discriminate H. Qed.
Lemma declaration_step : forall x y, ~ In 62 x -> match x with [] => True | c :: _ => c <> 45 /\ c <> 91 end -> one None (($ "<!" ++ x ++ $ ">") ++ y) = Next [] y None.
Proof.
  intros x y Q D. replace (($ "<!" ++ x ++ $ ">") ++ y) with (60 :: 33 :: x ++ 62 :: y) by (repeat (rewrite <- ?app_assoc; cbn [app L]); reflexivity).
  unfold one. change (60 =? 60) with true. cbv iota. cbn [lt_step]. change (is_alpha 33) with false. change (33 =? 47) with false. cbv iota.
  assert (S1 : startswith ($ "<!--") (60 :: 33 :: x ++ 62 :: y) = false).
  { destruct x as [|c x]; [reflexivity|]. destruct D as [D _]. cbn [L app startswith]. rewrite !N.eqb_refl. cbn [andb]. destruct (N.eqb_spec 45 c) as [<-|_]; [congruence|reflexivity]. }
  assert (S2 : startswith ($ "<![") (60 :: 33 :: x ++ 62 :: y) = false).
  { destruct x as [|c x]; [reflexivity|]. destruct D as [_ D]. cbn [L app startswith]. rewrite !N.eqb_refl. cbn [andb]. destruct (N.eqb_spec 91 c) as [<-|_]; [congruence|reflexivity]. }
  rewrite S1. change (33 =? 63) with false. change (33 =? 33) with true. cbv iota. unfold parse_html_declaration. rewrite S2.
  destruct (str_eqb (lower (firstn 9 (60 :: 33 :: x ++ 62 :: y))) ($ "<!doctype")) eqn:E.
  - apply str_eqb_eq in E. cbn [firstn] in E. unfold lower in E. cbn [map] in E. injection E as E.
    assert (LX : (7 <= List.length x)%nat).
    { destruct (Nat.le_gt_cases 7 (List.length x)) as [G|G]; [exact G|exfalso].
      assert (I : In 62 (map lower_c (firstn 7 (x ++ 62 :: y)))).
      { change 62 with (lower_c 62). apply in_map. rewrite firstn_app. apply in_or_app. right. destruct (7 - List.length x)%nat eqn:Z; [lia|]. left. reflexivity. }
      match type of I with In _ ?t => replace t with ($ "doctype") in I by (symmetry; exact E) end. cbv in I. intuition discriminate. }
    change (skipn 9 (60 :: 33 :: x ++ 62 :: y)) with (skipn 7 (x ++ 62 :: y)). rewrite skipn_app. replace (7 - List.length x)%nat with 0%nat by lia. cbn [skipn]. unfold find. rewrite split1_here; [reflexivity|].
    intro I. apply Q. rewrite <- (firstn_skipn 7 x). apply in_or_app. right. exact I.
  - unfold parse_bogus_comment. cbn [skipn]. unfold find. rewrite split1_here by exact Q. reflexivity.
Qed.
Lemma unseen_one : forall h y, unseen1 h -> one None (h ++ y) = Next [] y None.
Proof.
  intros h y [x w Q Q' W|k x K Q|x Q|x Q D|n k x w I K Q E Q' W|n k x v w I K Q E Q'' V Q' W]; apply quiet62 in Q.
  - cbn [app L]. unfold one. change (60 =? 60) with true. cbv iota. cbn [lt_step]. change (is_alpha 33) with false. change (33 =? 47) with false. cbv iota.
    change (startswith ($ "<!--") (60 :: 33 :: 45 :: 45 :: (x ++ 45 :: 45 :: w ++ [62]) ++ y)) with true. cbv iota. cbn [skipn]. rewrite <- app_assoc. cbn [app]. rewrite <- app_assoc. cbn [app].
    repeat (rewrite <- ?app_assoc; cbn [app]). destruct (search_close x w y Q W) as (b & m & E). cbn [app] in E |- *.
    match goal with |- context [search ?r ?t] => replace (search r t) with (Some (b, m, y)) by (symmetry; exact E) end. reflexivity.
  - assert (LK : List.length k = 7%nat). { clear - K. unfold cased in K. repeat match goal with H : Forall2 _ _ _ |- _ => inversion H; clear H; subst end. reflexivity. }
    assert (LL : lower k = $ "doctype"). { apply lower_cased; [reflexivity|exact K]. }
    destruct k as [|k0 k]; [discriminate|]. assert (K0 : k0 = 100 \/ k0 = 68). { inversion K as [|? ? ? ? [E|[_ E]] _]; subst; [left; reflexivity|right]. change 100 with (68 + 32) in E. apply N.add_cancel_r in E. auto. }
    unfold one. cbn [app L]. change (60 =? 60) with true. cbv iota. cbn [lt_step]. change (is_alpha 33) with false. change (33 =? 47) with false. cbv iota.
    assert (S1 : startswith ($ "<!--") (60 :: 33 :: k0 :: (k ++ x ++ [62]) ++ y) = false) by (destruct K0; subst k0; reflexivity).
    assert (S2 : startswith ($ "<![") (60 :: 33 :: k0 :: (k ++ x ++ [62]) ++ y) = false) by (destruct K0; subst k0; reflexivity).
    rewrite S1. change (33 =? 63) with false. change (33 =? 33) with true. cbv iota. unfold parse_html_declaration. rewrite S2.
    assert (F : firstn 9 (60 :: 33 :: k0 :: (k ++ x ++ [62]) ++ y) = 60 :: 33 :: k0 :: k).
    { rewrite <- !app_assoc. change (60 :: 33 :: k0 :: k ++ x ++ [62] ++ y) with ((60 :: 33 :: k0 :: k) ++ x ++ [62] ++ y). rewrite firstn_app, (firstn_all2 (60 :: 33 :: k0 :: k)) by (cbn [List.length] in *; lia).
      replace (9 - List.length (60 :: 33 :: k0 :: k)%N)%nat with 0%nat by (cbn [List.length] in *; lia). cbn [firstn]. apply app_nil_r. }
    assert (G : skipn 9 (60 :: 33 :: k0 :: (k ++ x ++ [62]) ++ y) = x ++ 62 :: y).
    { rewrite <- !app_assoc. change (60 :: 33 :: k0 :: k ++ x ++ [62] ++ y) with ((60 :: 33 :: k0 :: k) ++ x ++ [62] ++ y). rewrite skipn_app, (skipn_all2 (60 :: 33 :: k0 :: k)) by (cbn [List.length] in *; lia).
      replace (9 - List.length (60 :: 33 :: k0 :: k)%N)%nat with 0%nat by (cbn [List.length] in *; lia). reflexivity. }
    rewrite F, G. unfold lower in LL |- *. cbn [map] in LL |- *. change (lower_c 60) with 60. change (lower_c 33) with 33. rewrite LL. change (str_eqb (60 :: 33 :: $ "doctype") ($ "<!doctype")) with true. cbv iota.
    unfold find. rewrite split1_here by exact Q. reflexivity.
  - unfold one. cbn [app L]. change (60 =? 60) with true. cbv iota. cbn [lt_step]. change (is_alpha 63) with false. change (63 =? 47) with false. cbv iota.
    change (startswith ($ "<!--") (60 :: 63 :: (x ++ [62]) ++ y)) with false. change (63 =? 63) with true. cbv iota. unfold parse_bogus_comment. cbn [skipn]. rewrite <- app_assoc. cbn [app]. unfold find.
    rewrite split1_here by exact Q. reflexivity.
  - apply declaration_step; assumption.
  - destruct (section_name n k _ I eq_refl K) as (K1 & K2 & K3).
    replace (($ "<![" ++ k ++ x ++ $ "]" ++ w ++ $ ">") ++ y) with ($ "<![" ++ k ++ (x ++ 93 :: w ++ 62 :: y)) by (repeat (rewrite <- ?app_assoc; cbn [app L]); reflexivity).
    rewrite (section_step k _ n K1 K2 K3 (name_ends_stop x _ E)) by (apply in_or_app; right; left; reflexivity).
    replace (in_list [$ "temp"; $ "cdata"; $ "ignore"; $ "include"; $ "rcdata"] n) with false by (destruct I as [<-|[<-|[<-|[]]]]; reflexivity).
    replace (in_list [$ "if"; $ "else"; $ "endif"] n) with true by (destruct I as [<-|[<-|[<-|[]]]]; reflexivity).
    cbv zeta iota. destruct (search_ms (k ++ x) w y) as (b & m & EE); [intro J; apply in_app_or in J as [J|J]; [exact (name62 k K2 J)|exact (Q J)]|exact W|].
    rewrite <- app_assoc in EE. match goal with |- context [search ?r ?t] => replace (search r t) with (Some (b, m, y)) by (symmetry; exact EE) end. reflexivity.
  - destruct (section_name n k _ I eq_refl K) as (K1 & K2 & K3).
    replace (($ "<![" ++ k ++ x ++ $ "]" ++ v ++ $ "]" ++ w ++ $ ">") ++ y) with ($ "<![" ++ k ++ (x ++ 93 :: v ++ 93 :: w ++ 62 :: y)) by (repeat (rewrite <- ?app_assoc; cbn [app L]); reflexivity).
    rewrite (section_step k _ n K1 K2 K3 (name_ends_stop x _ E)) by (apply in_or_app; right; left; reflexivity).
    replace (in_list [$ "temp"; $ "cdata"; $ "ignore"; $ "include"; $ "rcdata"] n) with true by (destruct I as [<-|[<-|[<-|[<-|[<-|[]]]]]]; reflexivity).
    cbv zeta iota. destruct (search_marked (k ++ x) v w y) as (b & m & EE); [intro J; apply in_app_or in J as [J|J]; [exact (name62 k K2 J)|exact (Q J)]|exact V|exact W|].
    rewrite <- app_assoc in EE. match goal with |- context [search ?r ?t] => replace (search r t) with (Some (b, m, y)) by (symmetry; exact EE) end. reflexivity.
Qed.

(** ** as pieces *)
Record hidden (x : pc) : Prop := {
  hi_fine : pc_fine x; hi_nonl : tag_nonl x;
  hi_src : exists n a, x = Tg false n a /\ blk n = false /\ no60 (n ++ a) = true /\ n <> $ "pre";
  hi_tok : forall y, one None (pc_src x ++ y) = Next [] y None }.
Lemma quiet_parts : forall z, hush z = true -> forallb plain_c z = true.
Proof.
  intros z H. eapply forallb_impl; [|exact H]. intros c Hc. cbn [existsb] in Hc. unfold plain_c. destruct (c =? 10), (c =? 60), (c =? 62); try discriminate Hc; reflexivity.
Qed.
Lemma split_space : forall z : str, exists n a, z = n ++ a /\ forallb (fun c => negb (c =? 32)) n = true /\ (a = [] \/ exists t, a = 32 :: t).
Proof.
  induction z as [|c z (n & a & E & H1 & H2)]; [exists [], []; auto|]. destruct (N.eqb_spec c 32) as [->|N].
  - exists [], (32 :: z). split; [reflexivity|]. split; [reflexivity|]. right. eexists. reflexivity.
  - exists (c :: n), a. rewrite E. split; [reflexivity|]. split; [|exact H2]. cbn [forallb]. rewrite H1. apply N.eqb_neq in N. rewrite N. reflexivity.
Qed.
Lemma unseen_text : forall h, unseen1 h -> exists c z, h = 60 :: (c :: z) ++ [62] /\ (c = 33 \/ c = 63) /\ forallb plain_c (c :: z) = true.
Proof.
  intros h [x w Q Q' W|k x K Q|x Q|x Q D|n k x w I K Q E Q' W|n k x v w I K Q E Q'' V Q' W]; apply quiet_parts in Q; try apply quiet_parts in Q'.
  - exists 33, ($ "--" ++ x ++ $ "--" ++ w). split; [cbn [app L]; repeat (rewrite <- ?app_assoc; cbn [app L]); reflexivity|]. split; [auto|]. cbn [app L forallb]. rewrite forallb_app, Q. cbn [forallb andb]. exact Q'.
  - exists 33, (k ++ x). split; [cbn [app L]; rewrite <- !app_assoc; reflexivity|]. split; [auto|]. cbn [forallb]. rewrite forallb_app, Q, andb_true_r.
    apply plain_cname. apply (cased_name ($ "doctype")); [reflexivity|exact K].
  - exists 63, x. split; [reflexivity|]. split; [auto|]. cbn [forallb]. rewrite Q. reflexivity.
  - exists 33, x. split; [reflexivity|]. split; [auto|]. cbn [forallb]. rewrite Q. reflexivity.
  - destruct (section_name n k _ I eq_refl K) as (K1 & K2 & K3). apply plain_cname in K2.
    exists 33, (91 :: k ++ x ++ 93 :: w). split; [cbn [app L]; repeat (rewrite <- ?app_assoc; cbn [app L]); reflexivity|]. split; [auto|]. cbn [forallb]. rewrite !forallb_app, K2, Q. cbn [forallb andb]. exact Q'.
  - apply quiet_parts in Q''. destruct (section_name n k _ I eq_refl K) as (K1 & K2 & K3). apply plain_cname in K2.
    exists 33, (91 :: k ++ x ++ 93 :: v ++ 93 :: w). split; [cbn [app L]; repeat (rewrite <- ?app_assoc; cbn [app L]); reflexivity|]. split; [auto|]. cbn [forallb]. rewrite !forallb_app, K2, Q. cbn [forallb andb].
    rewrite forallb_app, Q''. cbn [forallb andb]. exact Q'.
Qed.
Lemma unseen_pc : forall h, unseen1 h -> exists x, hidden x /\ pc_src x = h.
Proof.
  intros h U. destruct (unseen_text h U) as (c & z & E & C & P). destruct (split_space z) as (n & a & -> & N & A).
  exists (Tg false (c :: n) a). assert (S0 : pc_src (Tg false (c :: n) a) = h).
  { rewrite E. cbn [pc_src]. unfold tag_src. cbn [app]. rewrite <- !app_assoc. reflexivity. }
  split; [|exact S0]. change (c :: n ++ a) with ((c :: n) ++ a) in P. pose proof P as P0. rewrite forallb_app in P. apply andb_true_iff in P as [P1 P2]. constructor.
  - cbn [pc_fine]. split; [discriminate|]. split; [|split; [|split]].
    + rewrite forallb_forall. intros d I. assert (D1 : plain_c d = true) by (rewrite forallb_forall in P1; apply P1; exact I). assert (D2 : d <> 32).
      { destruct I as [<-|I]; [destruct C; subst c; discriminate|]. rewrite forallb_forall in N. specialize (N _ I). apply negb_true_iff, N.eqb_neq in N. exact N. }
      unfold plain_c in D1. apply N.eqb_neq in D2. rewrite D2. destruct (d =? 62); [rewrite !orb_true_r in D1; discriminate D1|reflexivity].
    + intros _. cbn [stop]. destruct C; subst c; reflexivity.
    + exact A.
    + eapply forallb_impl; [|exact P2]. intros x Hx. unfold plain_c in Hx. cbv beta in *. destruct (x =? 10), (x =? 60), (x =? 62); try discriminate Hx; reflexivity.
  - cbn [tag_nonl]. unfold nonl. eapply forallb_impl; [|exact P0]. intros x Hx. unfold plain_c in Hx. cbv beta in *. destruct (x =? 10), (x =? 60), (x =? 62); try discriminate Hx; reflexivity.
  - exists (c :: n), a. split; [reflexivity|]. split; [|split].
    + destruct (blk (c :: n)) eqn:B; [|reflexivity]. exfalso. unfold blk, in_list in B. apply existsb_exists in B as (x & I & E1). apply str_eqb_eq in E1. subst x.
      cbv [BLOCK_TAGS] in I. destruct C; subst c; repeat (destruct I as [I|I]; [discriminate I|]); exact I.
    + unfold no60. eapply forallb_impl; [|exact P0]. intros x Hx. unfold plain_c in Hx. cbv beta in *. destruct (x =? 10), (x =? 60), (x =? 62); try discriminate Hx; reflexivity.
    + destruct C; subst c; discriminate.
  - intro y. rewrite S0. apply unseen_one. exact U.
Qed.
Lemma unseens_pcs : forall h, unseens1 h -> exists hs, Forall hidden hs /\ pcs_src hs = h /\ (h = [] -> hs = []).
Proof.
  intros h U. induction U as [|h t U _ (hs & H1 & H2 & _)]; [exists []; repeat split; constructor|].
  destruct (unseen_pc h U) as (x & X1 & X2). exists (x :: hs). split; [constructor; assumption|]. split; [change (pc_src x ++ pcs_src hs = h ++ t); rewrite X2, H2; reflexivity|].
  destruct (unseen_text h U) as (c & z & -> & _). discriminate.
Qed.

(** ** documents with hidden pieces *)
Definition may (b : bool) (hs : list pc) : Prop := Forall hidden hs /\ (b = false -> hs = []).
Lemma may_nil : forall b, may b [].
Proof. intro b. split; [constructor|reflexivity]. Qed.
(** before tags only *)
Inductive hq : bool -> list pc -> list pc -> Prop :=
| hq_nil b hs : may b hs -> hq b [] hs
| hq_ch b c l l' : c <> 60 -> hq false l l' -> hq b (Ch c :: l) (Ch c :: l')
| hq_tg b hs c n a n' a' l l' : may b hs -> tag_like c n a n' a' -> hq (blk n) l l' -> hq b (Tg c n a :: l) (hs ++ Tg c n' a' :: l').
(** before anything, and not at the end *)
Inductive hp : bool -> list pc -> list pc -> bool -> Prop :=
| hp_nil b : hp b [] [] b
| hp_ch b hs c l l' e : may b hs -> c <> 60 -> hp false l l' e -> hp b (Ch c :: l) (hs ++ Ch c :: l') e
| hp_tg b hs c n a n' a' l l' e : may b hs -> tag_like c n a n' a' -> hp (blk n) l l' e -> hp b (Tg c n a :: l) (hs ++ Tg c n' a' :: l') e.
Definition ho (b : bool) (l r : list pc) : Prop := exists r0 hs e, hp b l r0 e /\ may e hs /\ r = r0 ++ hs.

Lemma hp_split : forall l1 l2 b r e, hp b (l1 ++ l2) r e -> exists r1 r2 m, hp b l1 r1 m /\ hp m l2 r2 e /\ r = r1 ++ r2.
Proof.
  induction l1 as [|x l1 IH]; intros l2 b r e H; cbn [app] in H; [exists [], r, b; repeat split; [constructor|exact H]|].
  inversion H as [|? ? ? ? l' ? M C H'|? ? ? ? ? ? ? ? l' ? M T H']; subst; destruct (IH _ _ _ _ H') as (r1 & r2 & m & H1 & H2 & ->).
  - exists (hs ++ Ch c :: r1), r2, m. split; [constructor; assumption|]. split; [exact H2|]. rewrite <- app_assoc. reflexivity.
  - exists (hs ++ Tg c n' a' :: r1), r2, m. split; [constructor; assumption|]. split; [exact H2|]. rewrite <- app_assoc. reflexivity.
Qed.
Lemma hp_join : forall b l1 r1 m l2 r2, hp b l1 r1 m -> ho m l2 r2 -> ho b (l1 ++ l2) (r1 ++ r2).
Proof.
  intros b l1 r1 m l2 r2 H. induction H as [b|b hs c l l' e M C _ IH|b hs c n a n' a' l l' e M T _ IH]; intro O; [exact O| |];
    destruct (IH O) as (r0 & h0 & e0 & H1 & H2 & E).
  - exists (hs ++ Ch c :: r0), h0, e0. split; [cbn [app]; constructor; assumption|]. split; [exact H2|]. rewrite <- !app_assoc. cbn [app]. rewrite E. reflexivity.
  - exists (hs ++ Tg c n' a' :: r0), h0, e0. split; [cbn [app]; constructor; assumption|]. split; [exact H2|]. rewrite <- !app_assoc. cbn [app]. rewrite E. reflexivity.
Qed.
Lemma like_hp : forall l l', Forall2 like l l' -> forall b, exists e, hp b l l' e.
Proof.
  intros l l' H. induction H as [|x y l l' [c C|c n a n' a' T] _ IH]; intro b; [exists b; constructor| |].
  - destruct (IH false) as (e & He). exists e. apply (hp_ch b [] c l l' e (may_nil b) C He).
  - destruct (IH (blk n)) as (e & He). exists e. apply (hp_tg b [] c n a n' a' l l' e (may_nil b) T He).
Qed.
Lemma may_app : forall hs h, Forall hidden hs -> may true h -> may true (hs ++ h).
Proof. intros hs h F [H _]. split; [apply Forall_app; auto|discriminate]. Qed.
Lemma ho_front : forall hs l r, Forall hidden hs -> ho true l r -> ho true l (hs ++ r).
Proof.
  intros hs l r F (r0 & h0 & e & H1 & H2 & ->). inversion H1 as [|? h1 c l0 l' ? M C H|? h1 c n a n' a' l0 l' ? M T H]; subst.
  - exists [], (hs ++ h0), true. split; [constructor|]. split; [apply may_app; assumption|reflexivity].
  - exists ((hs ++ h1) ++ Ch c :: l'), h0, e. split; [constructor; [apply may_app|exact C|exact H]; assumption|]. split; [exact H2|]. rewrite <- !app_assoc. reflexivity.
  - exists ((hs ++ h1) ++ Tg c n' a' :: l'), h0, e. split; [constructor; [apply may_app|exact T|exact H]; assumption|]. split; [exact H2|]. rewrite <- !app_assoc. reflexivity.
Qed.

(** ** white space *)
Lemma hidden_tg : forall x, hidden x -> exists n a, x = Tg false n a /\ blk n = false.
Proof. intros x H. destruct (hi_src x H) as (n & a & -> & B & _). eauto. Qed.
Lemma sqp_hs : forall hs seen x l, Forall hidden (x :: hs) -> sqp seen [] ((x :: hs) ++ l) = (x :: hs) ++ sqp true [] l.
Proof.
  induction hs as [|y hs IH]; intros seen x l F; inversion_clear F as [|? ? F1 F2]; destruct (hidden_tg x F1) as (n & a & -> & _); cbn [app sqp].
  - destruct seen; reflexivity.
  - specialize (IH true y l F2). cbn [app] in IH. destruct (hidden_tg y) as (m & v & -> & _); [inversion F2; assumption|]. cbn [sqp] in IH |- *. cbn [app] in IH |- *. rewrite <- IH. destruct seen; reflexivity.
Qed.
Lemma hq_chars : forall (w : str) b l l', no60 w = true -> (w = [] -> hq b l l') -> (w <> [] -> hq false l l') -> hq b (map Ch w ++ l) (map Ch w ++ l').
Proof.
  induction w as [|c w IH]; intros b l l' W H1 H2; [apply H1; reflexivity|]. unfold no60 in W. cbn [forallb] in W. apply andb_true_iff in W as [W1 W2]. cbn [map app].
  constructor; [apply N.eqb_neq, negb_true_iff; exact W1|]. apply IH; [exact W2| |]; intros _; apply H2; discriminate.
Qed.
Lemma hq_weak : forall b l l', hq false l l' -> hq b l l'.
Proof.
  intros b l l' H. inversion H as [? hs M|? c l0 l0' C Q|? hs c n a n' a' l0 l0' M T Q]; subst.
  - destruct M as [_ M]. rewrite (M eq_refl). constructor. apply may_nil.
  - constructor; assumption.
  - destruct M as [_ M]. rewrite (M eq_refl). constructor; [apply may_nil|exact T|exact Q].
Qed.
Lemma sqp_hq : forall ps b ps' seen p, hq b ps ps' -> forallb is_space p = true -> (b = true -> p = []) -> hq b (sqp seen p ps) (sqp seen p ps').
Proof.
  intros ps b ps' seen p H. revert seen p. induction H as [b hs M|b c l l' C _ IH|b hs c n a n' a' l l' M T _ IH]; intros seen p P B.
  - cbn [sqp]. destruct hs as [|x hs]; [constructor; apply may_nil|]. destruct b; [|destruct M as [_ M]; specialize (M eq_refl); discriminate M].
    rewrite (B eq_refl). pose proof (sqp_hs hs seen x [] (proj1 M)) as E. rewrite app_nil_r in E. cbn [sqp] in E. rewrite app_nil_r in E. cbn [sqp] in E. refine (eq_ind_r (fun z => hq true [] z) (hq_nil true (x :: hs) M) E).
  - cbn [sqp]. destruct (is_space c) eqn:E.
    + apply hq_weak. apply IH; [rewrite forallb_app; apply andb_true_iff; split; [exact P|cbn [forallb]; rewrite E; reflexivity]|discriminate].
    + assert (Q : hq false (Ch c :: sqp true [] l) (Ch c :: sqp true [] l')) by (constructor; [exact C|apply IH; auto]).
      apply hq_chars; [|intros _; apply hq_weak; exact Q|intros _; exact Q]. destruct seen; [apply space60, conv_space, P|reflexivity].
  - destruct hs as [|x hs].
    + cbn [app sqp]. assert (Q : hq false (Tg c n a :: sqp true [] l) (Tg c n' a' :: sqp true [] l')) by (apply (hq_tg false []); [apply may_nil|exact T|apply IH; auto]).
      apply hq_chars; [|intros _; apply hq_weak; exact Q|intros _; exact Q]. destruct seen; [apply space60, conv_space, P|reflexivity].
    + destruct b; [|destruct M as [_ M]; specialize (M eq_refl); discriminate M]. rewrite (B eq_refl). rewrite sqp_hs by apply M. cbn [sqp].
      change (map Ch (if true then conv [] else [])) with (@nil pc). destruct seen; (change (map Ch (if true then conv [] else [])) with (@nil pc) || change (map Ch (if false then conv [] else [])) with (@nil pc)); cbn [app]; (apply (hq_tg true (x :: hs)); [exact M|exact T|apply IH; auto]).
Qed.
Definition calm (s : sst) : Prop := s = Run [] \/ exists p c n a, s = Tagged p c n a [] /\ blk n = true.
Lemma st_calm : forall s s', st_like s s' -> calm s -> calm s'.
Proof.
  intros s s' H [->|(p & c & n & a & -> & B)].
  - inversion H; subst. left. reflexivity.
  - inversion H as [|? ? ? ? n' a' ? T]; subst. right. exists p, c, n', a'. split; [reflexivity|]. rewrite (tl_blk _ _ _ _ _ T). exact B.
Qed.
Definition tag_first (l : list pc) : Prop := match l with [] | Tg _ _ _ :: _ => True | _ => False end.
Lemma hidden_flush : forall n a, blk n = false -> flushp (Tagged [] false n a []) = [Tg false n a].
Proof. intros n a B. cbn [flushp]. unfold tag_outp. cbv zeta. unfold blk in B. rewrite B. cbn [startswith]. change (endswith [32] []) with false. destruct (endswith [47] a); reflexivity. Qed.
Lemma szp_hidden : forall hs n a l, Forall hidden (Tg false n a :: hs) -> tag_first l -> szp (Tagged [] false n a []) (hs ++ l) = (Tg false n a :: hs) ++ szp (Run []) l.
Proof.
  induction hs as [|x hs IH]; intros n a l F TF; inversion_clear F as [|? ? F1 F2]; destruct (hidden_tg _ F1) as (n0 & a0 & E & B); injection E as <- <-.
  - cbn [app]. destruct l as [|[c|c m v] l]; [|destruct TF|]; cbn [szp]; rewrite (hidden_flush n a B); reflexivity.
  - assert (F3 : hidden x) by (inversion F2; assumption). destruct (hidden_tg _ F3) as (n1 & a1 & -> & _). cbn [app szp]. rewrite (hidden_flush n a B). cbn [app]. f_equal. exact (IH n1 a1 l F2 TF).
Qed.
Lemma szp_calm : forall s hs x l, calm s -> Forall hidden (x :: hs) -> tag_first l -> szp s ((x :: hs) ++ l) = flushp s ++ (x :: hs) ++ szp (Run []) l.
Proof.
  intros s hs x l C F TF. assert (F1 : hidden x) by (inversion F; assumption). destruct (hidden_tg _ F1) as (n & a & -> & _).
  destruct C as [->|(p & c & m & v & -> & B)]; cbn [app szp]; [exact (szp_hidden hs n a l F TF)|]. f_equal. exact (szp_hidden hs n a l F TF).
Qed.
Lemma calm_flush : forall s s' b, st_like s s' -> calm s -> (s = Run [] -> b = true) -> hp b (flushp s) (flushp s') true.
Proof.
  intros s s' b H [->|(p & c & n & a & -> & B)] K.
  - inversion H; subst. cbn [flushp map]. rewrite (K eq_refl). constructor.
  - inversion H as [|? ? ? ? n' a' ? T]; subst. pose proof (tl_blk _ _ _ _ _ T) as B'. rewrite B in B'. cbn [flushp]. unfold tag_outp. cbv zeta. unfold blk in B, B'. rewrite B, B'.
    apply (hp_tg b []); [apply may_nil|exact T|]. unfold blk. rewrite B. constructor.
Qed.
Lemma szp_hq : forall ps b ps' s s' b0, hq b ps ps' -> st_like s s' -> (b = true -> calm s) -> (b = true -> s = Run [] -> b0 = true) -> ho b0 (szp s ps) (szp s' ps').
Proof.
  intros ps b ps' s s' b0 H. revert s s' b0. induction H as [b hs M|b c l l' C _ IH|b hs c n a n' a' l l' M T _ IH]; intros s s' b0 L K B0.
  - destruct hs as [|x hs].
    + cbn [szp]. destruct (like_hp _ _ (flush_like s s' L) b0) as (e & He). exists (flushp s'), [], e. rewrite app_nil_r. split; [exact He|]. split; [apply may_nil|reflexivity].
    + destruct b; [|destruct M as [_ M]; specialize (M eq_refl); discriminate M]. specialize (K eq_refl). specialize (B0 eq_refl).
      pose proof (szp_calm s' hs x [] (st_calm s s' L K) (proj1 M) I) as E. rewrite app_nil_r in E. rewrite E. cbn [szp flushp map]. rewrite app_nil_r.
      exists (flushp s'), (x :: hs), true. split; [apply calm_flush; assumption|]. split; [exact M|reflexivity].
  - cbn [szp]. destruct (is_space c) eqn:E.
    + apply IH; [|discriminate|discriminate]. destruct L as [p P|p c0 n a n' a' l0 T]; constructor; [|exact T]. rewrite forallb_app. apply andb_true_iff. split; [exact P|]. cbn [forallb]. rewrite E. reflexivity.
    + destruct (like_hp _ _ (flush_like s s' L) b0) as (e & He). eapply hp_join; [exact He|]. 
      change (Ch c :: szp (Run []) l) with ([Ch c] ++ szp (Run []) l). change (Ch c :: szp (Run []) l') with ([Ch c] ++ szp (Run []) l'). eapply hp_join.
      * apply (hp_ch e [] c [] [] false); [apply may_nil|exact C|constructor].
      * apply IH; [constructor; reflexivity|discriminate|discriminate].
  - assert (GO : forall p b1, ho b1 (szp (Tagged p c n a []) l) (szp (Tagged p c n' a' []) l')).
    { intros p b1. apply IH; [constructor; exact T| |discriminate]. intro B. right. exists p, c, n, a. auto. }
    destruct hs as [|x hs].
    + cbn [app szp]. destruct L as [p P|p c0 n0 a0 n0' a0' l0 T0]; [apply GO|].
      destruct (like_hp _ _ (flush_like _ _ (sl_tagged p c0 n0 a0 n0' a0' l0 T0)) b0) as (e & He). eapply hp_join; [exact He|]. apply GO.
    + destruct b; [|destruct M as [_ M]; specialize (M eq_refl); discriminate M]. specialize (K eq_refl). specialize (B0 eq_refl).
      rewrite (szp_calm s' hs x (Tg c n' a' :: l') (st_calm s s' L K) (proj1 M) I). assert (E : szp s (Tg c n a :: l) = flushp s ++ szp (Tagged [] c n a []) l) by (destruct K as [->|(p & c0 & m & v & -> & _)]; reflexivity). rewrite E.
      change (szp (Run []) (Tg c n' a' :: l')) with (szp (Tagged [] c n' a' []) l'). eapply hp_join; [apply calm_flush; eassumption|]. apply ho_front; [apply M|apply GO].
Qed.
Lemma hq_fine : forall b l l', hq b l l' -> (Forall pc_fine l /\ Forall pc_fine l') /\ (Forall tag_nonl l /\ Forall tag_nonl l').
Proof.
  assert (HF : forall hs, Forall hidden hs -> Forall pc_fine hs /\ Forall tag_nonl hs).
  { intros hs F. induction F as [|x hs H _ [I1 I2]]; [split; constructor|]. destruct H. split; constructor; assumption. }
  intros b l l' H. induction H as [b hs M|b c l l' C _ [[I1 I2] [I3 I4]]|b hs c n a n' a' l l' M T _ [[I1 I2] [I3 I4]]].
  - destruct (HF hs (proj1 M)). repeat split; try assumption; constructor.
  - repeat split; constructor; try assumption; exact I.
  - destruct (HF hs (proj1 M)). destruct T. repeat split; try (apply Forall_app; split; [assumption|]); constructor; assumption.
Qed.
Lemma hp_fine : forall b l l' e, hp b l l' e -> Forall pc_fine l.
Proof. intros b l l' e H. induction H as [b|b hs c l l' e M C _ IH|b hs c n a n' a' l l' e M T _ IH]; constructor; try assumption. destruct T. assumption. Qed.
Theorem strip_hidden : forall ps ps', hq true ps ps' -> exists rs rs', strip_html (pcs_src ps) = pcs_src rs /\ strip_html (pcs_src ps') = pcs_src rs' /\ ho true rs rs'.
Proof.
  intros ps ps' H. pose proof (sqp_hq ps true ps' false [] H eq_refl (fun _ => eq_refl)) as Q. destruct (hq_fine _ _ _ Q) as [[F F'] _]. destruct (hq_fine _ _ _ H) as [_ [N N']].
  exists (szp (Run []) (sqp false [] ps)), (szp (Run []) (sqp false [] ps')).
  assert (K : forall l, Forall pc_fine l -> rsub [] (pcs_src l) = squeeze (Run []) l).
  { intros l HF. change (pcs_src l) with (held (Run []) ++ pcs_src l). apply rsub_squeeze; [exact HF|reflexivity]. }
  rewrite !strip_html_eq, !squash_pcs by assumption. rewrite !K by assumption. rewrite !squeeze_pcs. split; [reflexivity|]. split; [reflexivity|].
  eapply szp_hq; [exact Q|constructor; reflexivity|left; reflexivity|reflexivity].
Qed.

(** ** tokens of documents *)
Lemma more_nil : forall x, more [] x = x.
Proof. intros [a b]. reflexivity. Qed.
Lemma hs_toks : forall hs y, Forall hidden hs -> toks None (pcs_src hs ++ y) = toks None y.
Proof.
  intros hs y F. induction F as [|x hs H _ IH]; [reflexivity|]. change (pcs_src (x :: hs)) with (pc_src x ++ pcs_src hs). rewrite <- app_assoc.
  destruct (hidden_tg x H) as (n & a & E & _). rewrite (toks_next _ [] (pcs_src hs ++ y)); [rewrite more_nil; exact IH| | |apply (hi_tok x H)]; rewrite E; [discriminate|left; reflexivity].
Qed.
Lemma chars_hp : forall s rs b e, hp b (map Ch s) rs e -> s <> [] -> exists hs, Forall hidden hs /\ rs = hs ++ map Ch s.
Proof.
  assert (R : forall s rs e, hp false (map Ch s) rs e -> rs = map Ch s).
  { induction s as [|c s IH]; intros rs e H; inversion H as [|? hs ? ? l' ? [_ M] C Q|]; subst; [reflexivity|]. rewrite (M eq_refl). cbn [app map]. f_equal. eapply IH. exact Q. }
  intros s rs b e H N. destruct s as [|c s]; [congruence|]. inversion H as [|? hs ? ? l' ? [M _] C Q|]; subst. exists hs. split; [exact M|]. cbn [map]. rewrite (R _ _ _ Q). reflexivity.
Qed.
Lemma tag_hp : forall c n a rs tk b e, hp b [Tg c n a] rs e -> (forall y, one None (tag_src c n a ++ y) = Next [tk] y None) ->
  exists ts, Forall2 toklike [tk] ts /\ forall y, toks None (pcs_src rs ++ y) = more ts (toks None y).
Proof.
  intros c n a rs tk b e H T. inversion H as [| |? hs ? ? ? n' a' ? l' ? [M _] TL Q]; subst. inversion Q; subst.
  destruct (tag_run c n a [Tg c n' a'] tk) as (ts & K1 & K2); [constructor; [constructor; exact TL|constructor]|exact T|].
  exists ts. split; [exact K1|]. intro y. rewrite pcs_app, <- app_assoc, hs_toks by exact M. apply K2.
Qed.
Lemma hp_markup : forall c n a l b rs e y, hp b (Tg c n a :: l) rs e -> markup (pcs_src rs ++ y).
Proof.
  intros c n a l b rs e y H. inversion H as [| |? hs ? ? ? n' a' ? l' ? [M _] TL Q]; subst. rewrite pcs_app.
  destruct hs as [|x hs]; [left; reflexivity|]. assert (F1 : hidden x) by (inversion M; assumption). destruct (hidden_tg x F1) as (n0 & a0 & -> & _). left. reflexivity.
Qed.
Lemma char_markup : forall s b rs e y, hp b (map Ch (38 :: s)) rs e -> markup (pcs_src rs ++ y).
Proof.
  intros s b rs e y H. destruct (chars_hp _ _ _ _ H) as (hs & F & ->); [discriminate|]. rewrite pcs_app.
  destruct hs as [|x hs]; [right; reflexivity|]. assert (F1 : hidden x) by (inversion F; assumption). destruct (hidden_tg x F1) as (n0 & a0 & -> & _). left. reflexivity.
Qed.
Lemma hp_text : forall d rs b e y, dom_wf d = true -> is_text d = false -> hp b (dpcs d) rs e -> markup (pcs_src rs ++ y).
Proof.
  intros d rs b e y W T H. destruct d as [s|s|s|t a|t a|i0 i|t a ks]; try discriminate T; cbn [dpcs] in H; try (eapply hp_markup; exact H).
  - eapply char_markup. exact H.
  - eapply char_markup. exact H.
Qed.
Definition told (d : dom) (rs : list pc) : Prop :=
  exists ts, Forall2 toklike (dom_toks d) ts /\ forall y, (is_text d = true -> markup y) -> toks None (pcs_src rs ++ y) = more ts (toks None y).
Lemma told_list : forall ks, Forall (fun d => dom_wf d = true -> forall b rs e, hp b (dpcs d) rs e -> told d rs) ks ->
  forallb dom_wf ks = true -> apart ks = true -> forall b rs e, hp b (flat_map dpcs ks) rs e ->
  exists ts, Forall2 toklike (flat_map dom_toks ks) ts /\ forall y, markup y -> toks None (pcs_src rs ++ y) = more ts (toks None y).
Proof.
  induction ks as [|d ks IH]; intros F W A b rs e H.
  - inversion H; subst. exists []. split; [constructor|]. intros y _. rewrite more_nil. reflexivity.
  - inversion_clear F as [|? ? F1 F2]. cbn [forallb] in W. apply andb_true_iff in W as [W1 W2]. cbn [flat_map] in H. apply hp_split in H as (r1 & r2 & m & H1 & H2 & ->).
    assert (A' : apart ks = true) by (destruct d; try exact A; destruct ks as [|[] ?]; try discriminate A; exact A).
    destruct (F1 W1 b r1 m H1) as (t1 & T1 & E1). destruct (IH F2 W2 A' m r2 e H2) as (t2 & T2 & E2).
    exists (t1 ++ t2). split; [cbn [flat_map]; apply Forall2_app; assumption|]. intros y Hy. rewrite pcs_app, <- app_assoc. rewrite E1.
    + rewrite E2 by exact Hy. apply more_more.
    + intro T. destruct d; try discriminate T. destruct ks as [|d2 ks]; [inversion H2; subst; exact Hy|].
      cbn [flat_map] in H2. apply hp_split in H2 as (r3 & r4 & m2 & H3 & H4 & ->). rewrite pcs_app, <- app_assoc.
      cbn [forallb] in W2. apply andb_true_iff in W2 as [W2 _]. eapply hp_text; [exact W2| |exact H3]. destruct d2; [discriminate A|reflexivity..].
Qed.
Lemma tells : forall d, dom_wf d = true -> forall b rs e, hp b (dpcs d) rs e -> told d rs.
Proof.
  assert (CH : forall d, dom_wf d = true -> dpcs d = map Ch (show_dom d) -> show_dom d <> [] -> forall b rs e, hp b (dpcs d) rs e -> told d rs).
  { intros d W E N b rs e H. rewrite E in H. destruct (chars_hp _ _ _ _ H N) as (hs & F & ->). exists (dom_toks d). split; [apply toklike_refl|]. intros y Hy. rewrite pcs_app, <- app_assoc, hs_toks by exact F.
    rewrite chars_src. apply dom_run; assumption. }
  assert (TG : forall d c n a tk, dpcs d = [Tg c n a] -> dom_toks d = [tk] -> (forall y, one None (tag_src c n a ++ y) = Next [tk] y None) -> forall b rs e, hp b (dpcs d) rs e -> told d rs).
  { intros d c n a tk E1 E2 T b rs e H. rewrite E1 in H. destruct (tag_hp c n a rs tk b e H T) as (ts & K1 & K2). exists ts. rewrite E2. split; [exact K1|]. intros y _. apply K2. }
  induction d as [s|s|s|t a|t a|b0 i|t a ks IH] using dom_ind'; intros W b rs e H.
  - eapply CH; [exact W|reflexivity| |exact H]. cbn [dom_wf] in W. cbn [show_dom]. destruct s; [discriminate W|discriminate].
  - eapply CH; [exact W|reflexivity|discriminate|exact H].
  - eapply CH; [exact W|reflexivity|discriminate|exact H].
  - cbn [dom_wf] in W. apply andb_true_iff in W as [W1 W2]. eapply TG; [reflexivity|reflexivity|intro y; apply void_one; assumption|exact H].
  - cbn [dom_wf] in W. apply andb_true_iff in W as [W1 W2]. eapply TG; [reflexivity|reflexivity|intro y; apply self_one; assumption|exact H].
  - eapply TG; [reflexivity|reflexivity|intro y; apply self_one; destruct b0; reflexivity|exact H].
  - cbn [dom_wf] in W. rewrite !andb_true_iff in W. destruct W as [[[W1 W2] W3] W4]. cbn [dpcs] in H.
    change (Tg false t (show_attrs a) :: flat_map dpcs ks ++ [Tg true t []]) with ([Tg false t (show_attrs a)] ++ flat_map dpcs ks ++ [Tg true t []]) in H.
    apply hp_split in H as (r1 & r0 & m1 & H1 & H0 & ->). apply hp_split in H0 as (r2 & r3 & m2 & H2 & H3 & ->).
    destruct (tag_hp _ _ _ r1 (TStart t a) _ _ H1 (fun y => void_one t a y W1 W2)) as (t1 & T1 & E1).
    destruct (told_list ks IH W3 W4 _ r2 _ H2) as (t2 & T2 & E2).
    destruct (tag_hp _ _ _ r3 (TEnd t) _ _ H3 (fun y => end_one t y W1)) as (t3 & T3 & E3).
    exists (t1 ++ t2 ++ t3). split.
    + cbn [dom_toks]. change (TStart t a :: flat_map dom_toks ks ++ [TEnd t]) with ([TStart t a] ++ flat_map dom_toks ks ++ [TEnd t]). repeat apply Forall2_app; assumption.
    + intros y _. rewrite !pcs_app, <- !app_assoc. rewrite E1, E2, E3, !more_more; [rewrite <- ?app_assoc; reflexivity|]. eapply hp_markup. exact H3.
Qed.
Theorem feed_hidden : forall ds rs bd, forallb dom_wf ds = true -> apart ds = true -> ho true (flat_map dpcs ds) rs ->
  feed_tokens (pcs_src rs) bd = feed_tokens (show_doms ds) bd.
Proof.
  intros ds rs bd W A (r0 & hs & e & H & [M _] & ->). destruct (told_list ds) with (b := true) (rs := r0) (e := e) as (ts & T & E); [|exact W|exact A|exact H|].
  { apply Forall_forall. intros d _. apply tells. }
  unfold feed_tokens. rewrite document_run by assumption.
  assert (K : tokens (pcs_src (r0 ++ hs)) = (ts, false)).
  { rewrite pcs_app. etransitivity; [apply E|].
    - destruct hs as [|x hs]; [exact I|]. assert (F1 : hidden x) by (inversion M; assumption). destruct (hidden_tg x F1) as (n0 & a0 & -> & _). left. reflexivity.
    - pose proof (hs_toks hs [] M) as X. rewrite app_nil_r in X. rewrite X. unfold more. cbn. rewrite app_nil_r. reflexivity. }
  rewrite K. rewrite (handle_all_like _ _ (h_init bd) T). reflexivity.
Qed.
Lemma hq_never_pre : forall f ps ps', hq f ps ps' -> forall a b, pcs_src ps' <> a ++ $ "<pre>" ++ b.
Proof.
  assert (ONE : forall c n' m' l', tag_fine c n' m' -> no60 (n' ++ m') = true -> n' <> $ "pre" -> (forall a b, pcs_src l' <> a ++ $ "<pre>" ++ b) -> forall a b, tag_src c n' m' ++ pcs_src l' <> a ++ $ "<pre>" ++ b).
  { intros c n' m' l' F N60 NP IH a b E. unfold tag_src in E. cbn [app] in E. rewrite <- !app_assoc in E. cbn [app] in E.
    destruct a as [|d a]; cbn [app L] in E.
    + injection E as E. destruct c; [discriminate E|]. cbn [app] in E. destruct F as (F1 & F2 & F3 & F4 & F5).
      assert (Q : n' = $ "pre"); [|exact (NP Q)].
      destruct (name_split n' ($ "pre") (m' ++ 62 :: pcs_src l') (62 :: b) F2 eq_refl) as [Q _]; [| |exact E|exact Q].
      * destruct F4 as [->|(t & ->)]; eexists _, _; (split; [reflexivity|]); auto.
      * eexists _, _. split; [reflexivity|]. auto.
    + injection E as _ E.
      assert (X : no60 ((if c then [47] else []) ++ n' ++ m' ++ [62]) = true).
      { unfold no60 in *. rewrite !forallb_app in *. apply andb_true_iff in N60 as [N1 N2]. rewrite N1, N2. destruct c; reflexivity. }
      replace ((if c then [47] else []) ++ n' ++ m' ++ 62 :: pcs_src l') with (((if c then [47] else []) ++ n' ++ m' ++ [62]) ++ pcs_src l') in E by (rewrite <- !app_assoc; reflexivity).
      destruct (skip60 _ _ a (112 :: 114 :: 101 :: 62 :: b) X E) as (a' & -> & E'). exact (IH a' b E'). }
  assert (HS : forall hs l', Forall hidden hs -> (forall a b, pcs_src l' <> a ++ $ "<pre>" ++ b) -> forall a b, pcs_src (hs ++ l') <> a ++ $ "<pre>" ++ b).
  { intros hs l' F H. induction F as [|x hs Hx _ IH]; [exact H|]. destruct (hi_src x Hx) as (n & m & -> & _ & N1 & N2). apply (ONE false n m (hs ++ l')); [exact (hi_fine _ Hx)|exact N1|exact N2|exact IH]. }
  intros f ps ps' H. induction H as [f hs M|f c l l' C _ IH|f hs c n m n' m' l l' M T _ IH].
  - intros a b. rewrite <- (app_nil_r hs). apply HS; [apply M|]. intros u v E. destruct u; discriminate E.
  - intros a b E. change (pcs_src (Ch c :: l')) with (c :: pcs_src l') in E. destruct a as [|d a]; cbn [app L] in E; [injection E as -> _; congruence|]. injection E as -> E. exact (IH a b E).
  - apply HS; [apply M|]. destruct T as [_ F _ _ _ _ N60 NP _]. apply (ONE c n' m' l'); assumption.
Qed.

(** ** parts *)
Lemma hq_app : forall w b l l', no60 w = true -> hq (b && is_nil w) l l' -> hq b (map Ch w ++ l) (map Ch w ++ l').
Proof.
  intros w b l l' W H. apply hq_chars; [exact W| |].
  - intros ->. cbn [is_nil] in H. rewrite andb_true_r in H. exact H.
  - intro N. destruct w; [congruence|]. cbn [is_nil] in H. rewrite andb_false_r in H. exact H.
Qed.
Lemma more_spell : forall t b s, forallb tag_part_ok t = true -> fits_more1 b t s -> exists ps ps', spell t ps /\ pcs_src ps' = s /\ hq b ps ps'.
Proof.
  induction t as [|p t IH]; intros b s T F.
  - cbn [fits_more1] in F. destruct F as [U B]. destruct (unseens_pcs s U) as (hs & H1 & H2 & H3). exists [], hs. split; [constructor|]. split; [exact H2|].
    constructor. split; [exact H1|]. intro Hb. apply H3, B, Hb.
  - cbn [forallb] in T. apply andb_true_iff in T as [T1 T2]. destruct p as [n v|n|n v|w|]; cbn [fits_more1] in F.
    4: { destruct F as (u & -> & Fu). destruct (IH false u T2 Fu) as (ps & ps' & S1 & S2 & S3). exists (pcs (Txt w) ++ ps), (map Ch w ++ ps'). split; [constructor; [discriminate|exact S1]|].
         split; [rewrite pcs_app, chars_src, S2; reflexivity|]. cbn [pcs]. apply hq_chars; [exact T1|intros _; apply hq_weak; exact S3|intros _; exact S3]. }
    4: { destruct F as (w & u & Hw & -> & Fu). destruct (IH _ u T2 Fu) as (ps & ps' & S1 & S2 & S3). exists (map Ch w ++ ps), (map Ch w ++ ps'). split; [constructor; assumption|].
         split; [rewrite pcs_app, chars_src, S2; reflexivity|]. apply hq_app; [apply space60, Hw|exact S3]. }
    all: destruct F as (h & w & u & U & B & W & -> & Fu); destruct (IH _ u T2 Fu) as (ps & ps' & S1 & S2 & S3); destruct (part_like _ w T1 W) as (qs & Q1 & Q2);
      destruct (unseens_pcs h U) as (hs & H1 & H2 & H3); cbn [pcs] in Q1; inversion Q1 as [|? y ? ? Q3 Q4]; subst; inversion Q4; subst; inversion Q3 as [|? ? ? n' a' TL]; subst.
    + exists (pcs (Open n v) ++ ps), (hs ++ Tg false n' a' :: ps'). split; [constructor; [discriminate|exact S1]|]. split.
      * rewrite pcs_app. f_equal. rewrite one_pc. reflexivity.
      * cbn [pcs app]. constructor; [split; [exact H1|intro Hb; apply H3, B, Hb]|exact TL|exact S3].
    + exists (pcs (Close n) ++ ps), (hs ++ Tg true n' a' :: ps'). split; [constructor; [discriminate|exact S1]|]. split.
      * rewrite pcs_app. f_equal. rewrite one_pc. reflexivity.
      * cbn [pcs app]. constructor; [split; [exact H1|intro Hb; apply H3, B, Hb]|exact TL|exact S3].
    + exists (pcs (Single n v) ++ ps), (hs ++ Tg false n' a' :: ps'). split; [constructor; [discriminate|exact S1]|]. split.
      * rewrite pcs_app. f_equal. rewrite one_pc. reflexivity.
      * cbn [pcs app]. constructor; [split; [exact H1|intro Hb; apply H3, B, Hb]|exact TL|exact S3].
Qed.
(** ** several lines *)
Definition same_squash (s t : str) : Prop := forall seen p, squash seen p s = squash seen p t.
Lemma same_app : forall a s t, same_squash s t -> same_squash (a ++ s) (a ++ t).
Proof.
  induction a as [|c a IH]; intros s t H; [exact H|]. intros seen p. cbn [app squash]. destruct (is_space c); [apply IH; exact H|]. f_equal. f_equal. apply IH. exact H.
Qed.
Lemma squash_to : forall a seen p c r, is_space c = false -> exists a', squash seen p (a ++ c :: r) = a' ++ c :: squash true [] r.
Proof.
  induction a as [|d a IH]; intros seen p c r C; cbn [app squash]; [rewrite C; eexists; reflexivity|].
  destruct (is_space d); [apply IH; exact C|]. destruct (IH true [] c r C) as (a' & ->). exists ((if seen then conv p else []) ++ d :: a'). rewrite <- app_assoc. reflexivity.
Qed.
Lemma hush_app : forall a b, hush (a ++ b) = hush a && hush b.
Proof. intros. unfold hush. apply forallb_app. Qed.
Lemma hush_conv : forall p, forallb is_space p = true -> hush (conv p) = true.
Proof.
  intros p P. unfold conv. destruct (existsb (N.eqb 10) p) eqn:E.
  - induction (count_occ N.eq_dec p 10) as [|n IH]; [reflexivity|]. cbn [repeat]. unfold hush in *. cbn [forallb]. rewrite IH. reflexivity.
  - unfold hush. rewrite forallb_forall in *. intros c I. specialize (P c I). assert (c <> 10). { intros ->. assert (X : existsb (N.eqb 10) p = true) by (apply existsb_exists; exists 10; auto). congruence. }
    apply N.eqb_neq in H. cbn [existsb]. rewrite H. destruct (c =? 60) eqn:E1; [apply N.eqb_eq in E1; subst c; discriminate P|]. destruct (c =? 62) eqn:E2; [apply N.eqb_eq in E2; subst c; discriminate P|]. reflexivity.
Qed.
Lemma conv_is_blank : forall p, forallb is_space p = true -> forallb is_space (conv p) = true.
Proof.
  intros p P. unfold conv. destruct (existsb (N.eqb 10) p); [|exact P]. induction (count_occ N.eq_dec p 10) as [|n IH]; [reflexivity|]. cbn [repeat forallb]. exact IH.
Qed.
Lemma conv_ends : forall p, forallb is_space p = true -> p <> [] -> exists c r, conv p = c :: r /\ is_space c = true.
Proof.
  intros p P N. assert (X : conv p <> []).
  { unfold conv. destruct (existsb (N.eqb 10) p) eqn:E; [|exact N]. apply existsb_exists in E as (d & I & D). apply N.eqb_eq in D. subst d. apply (count_occ_In N.eq_dec) in I. destruct (count_occ N.eq_dec p 10); [lia|discriminate]. }
  pose proof (conv_is_blank p P) as B. destruct (conv p) as [|c r]; [congruence|]. exists c, r. split; [reflexivity|]. cbn [forallb] in B. apply andb_true_iff in B. tauto.
Qed.
(** the text of a comment after the newlines are gone *)
Lemma quiet_line : forall x p, quiet x = true -> forallb is_space p = true -> exists x1, hush x1 = true /\
  (forall f, (forall c, is_space c = true -> f c = false) -> p <> [] \/ stop f x -> stop f x1) /\ (forallb is_space x = true -> forallb is_space x1 = true) /\
  forall c y, is_space c = false -> squash true p (x ++ c :: y) = x1 ++ c :: squash true [] y.
Proof.
  induction x as [|d x IH]; intros p Q P.
  - exists (conv p). split; [apply hush_conv; exact P|]. split; [|split; [intros _; apply conv_is_blank; exact P|]].
    + intros f F _. destruct p as [|d p]; [exact Logic.I|]. destruct (conv_ends (d :: p) P ltac:(discriminate)) as (c & r & -> & C). apply F. exact C.
    + intros c y C. cbn [app squash]. rewrite C. reflexivity.
  - unfold quiet in Q. cbn [forallb] in Q. apply andb_true_iff in Q as [Q1 Q2]. destruct (is_space d) eqn:D.
    + destruct (IH (p ++ [d]) Q2) as (x1 & H1 & H3 & H4 & H2); [rewrite forallb_app; apply andb_true_iff; split; [exact P|cbn [forallb]; rewrite D; reflexivity]|].
      exists x1. split; [exact H1|]. split; [intros f F _; apply (H3 f F); left; destruct p; discriminate|]. split; [intro B; apply H4; cbn [forallb] in B; apply andb_true_iff in B; tauto|]. intros c y C. cbn [app squash]. rewrite D. apply H2. exact C.
    + destruct (IH [] Q2 eq_refl) as (x1 & H1 & _ & H4 & H2). exists (conv p ++ d :: x1). split; [|split; [|split]].
      * rewrite hush_app, (hush_conv p P). change (d :: x1) with ([d] ++ x1). rewrite hush_app, H1. cbn [hush forallb andb existsb] in *. destruct (d =? 10) eqn:E; [apply N.eqb_eq in E; subst d; discriminate D|]. cbn [orb]. rewrite Q1. reflexivity.
      * intros f F [X|X]; [destruct (conv_ends p P X) as (c & r & -> & C); cbn [app]; apply F; exact C|].
        destruct p as [|e p]; [exact X|]. destruct (conv_ends (e :: p) P ltac:(discriminate)) as (c & r & -> & C). cbn [app]. apply F. exact C.
      * intro B. cbn [forallb] in B. rewrite D in B. discriminate B.
      * intros c y C. cbn [app squash]. rewrite D. rewrite H2 by exact C. rewrite <- app_assoc. reflexivity.
Qed.
Lemma quiet_same : forall x, quiet x = true -> exists x1, hush x1 = true /\ (forall f, (forall c, is_space c = true -> f c = false) -> stop f x -> stop f x1) /\ (forallb is_space x = true -> forallb is_space x1 = true) /\ forall a0 a c y, is_space a0 = false -> is_space c = false -> same_squash (a ++ a0 :: x ++ c :: y) (a ++ a0 :: x1 ++ c :: y).
Proof.
  intros x Q. destruct (quiet_line x [] Q eq_refl) as (x1 & H1 & H3 & H4 & H2). exists x1. split; [exact H1|]. split; [intros f F X; apply (H3 f F); right; exact X|]. split; [exact H4|]. intros a0 a c y A C. apply same_app. intros seen p. cbn [squash]. rewrite A. f_equal. f_equal.
  rewrite H2 by exact C. rewrite squash_text; [reflexivity| |reflexivity|exact C].
  unfold hush in H1. unfold nonl. eapply forallb_impl; [|exact H1]. intros d Hd. cbv beta in *. cbn [existsb] in *. destruct (d =? 10); [discriminate Hd|reflexivity].
Qed.
Lemma same_trans : forall a b c, same_squash a b -> same_squash b c -> same_squash a c.
Proof. intros a b c H1 H2 seen p. rewrite H1. apply H2. Qed.
Lemma blank_quiet : forall w, forallb is_space w = true -> quiet w = true.
Proof.
  intros w. apply forallb_impl. intros c H. cbn [existsb]. destruct (c =? 60) eqn:E1; [apply N.eqb_eq in E1; subst c; discriminate H|]. destruct (c =? 62) eqn:E2; [apply N.eqb_eq in E2; subst c; discriminate H|]. reflexivity.
Qed.
Lemma name_last : forall k, k <> [] -> cname k = true -> exists k' c, k = k' ++ [c] /\ is_space c = false.
Proof.
  intros k K C. destruct (exists_last K) as (k' & c & ->). exists k', c. split; [reflexivity|]. apply cname_chars in C as [C _]. rewrite forallb_app in C. apply andb_true_iff in C as [_ C].
  cbn [forallb] in C. apply andb_true_iff in C as [C _]. apply cchar_range in C. unfold is_space. cls.
Qed.
Lemma ends_kept : forall x x1, (forall f, (forall c, is_space c = true -> f c = false) -> stop f x -> stop f x1) -> name_ends x -> name_ends x1.
Proof.
  intros x x1 H E. assert (K : stop (fun c => letter c || dec c || existsb (N.eqb c) [45; 46; 95]) x1).
  { apply H; [|destruct x; exact E]. clear. intros c H. destruct (letter c || dec c || existsb (N.eqb c) [45; 46; 95]) eqn:E; [|reflexivity]. exfalso.
    assert (X : 48 <= c <= 57 \/ 97 <= c <= 122 \/ 65 <= c <= 90 \/ c = 45 \/ c = 46 \/ c = 95).
    { rewrite !orb_true_iff in E. destruct E as [[E|E]|E].
      - apply letter_range in E. tauto.
      - unfold dec in E. apply andb_true_iff in E as [E1 E2]. apply N.leb_le in E1, E2. left. lia.
      - cbn [existsb] in E. rewrite !orb_true_iff, !N.eqb_eq in E. destruct E as [E|[E|[E|E]]]; [tauto|tauto|tauto|discriminate]. }
    assert (Y : is_space c = false) by (unfold is_space; cls). congruence. }
  destruct x1; exact K.
Qed.
Lemma start_kept : forall x x1, (forall f, (forall c, is_space c = true -> f c = false) -> stop f x -> stop f x1) ->
  match x with [] => True | c :: _ => c <> 45 /\ c <> 91 end -> match x1 with [] => True | c :: _ => c <> 45 /\ c <> 91 end.
Proof.
  intros x x1 H E. assert (K : stop (fun c => existsb (N.eqb c) [45; 91]) x1).
  { apply H.
    - clear. intros c H. cbn [existsb]. destruct (N.eqb_spec c 45) as [->|_]; [discriminate H|]. destruct (N.eqb_spec c 91) as [->|_]; [discriminate H|]. reflexivity.
    - destruct x as [|c x]; [exact Logic.I|]. cbn [stop existsb]. destruct E as [E1 E2]. apply N.eqb_neq in E1, E2. rewrite E1, E2. reflexivity. }
  destruct x1 as [|c x1]; [exact Logic.I|]. cbn [stop existsb] in K. rewrite !orb_false_iff, !N.eqb_neq in K. tauto.
Qed.
Lemma unseen_line : forall h, unseen h -> exists h1, unseen1 h1 /\ forall y, same_squash (h ++ y) (h1 ++ y).
Proof.
  intros h [x w Q W|k x K Q|x Q|x Q D|n k x w I K Q E W|n k x v w I K Q E V W]; destruct (quiet_same x Q) as (x1 & H1 & HN & _ & H2);
    try (destruct (quiet_same w (blank_quiet w W)) as (w1 & G1 & _ & G3 & G2); specialize (G3 W)).
  - exists ($ "<!--" ++ x1 ++ $ "--" ++ w1 ++ $ ">"). split; [constructor; assumption|]. intro y. cbn [app L]. repeat (rewrite <- ?app_assoc; cbn [app]).
    eapply same_trans; [apply (H2 45 [60; 33; 45] 45 (45 :: w ++ 62 :: y)); reflexivity|].
    change (60 :: 33 :: 45 :: 45 :: x1 ++ 45 :: 45 :: w1 ++ 62 :: y) with ((60 :: 33 :: 45 :: 45 :: x1 ++ [45; 45] ++ w1 ++ 62 :: y)).
    pose proof (G2 45 (60 :: 33 :: 45 :: 45 :: x1 ++ [45]) 62 y eq_refl eq_refl) as X. cbn [app] in X |- *. rewrite <- !app_assoc in X. exact X.
  - exists ($ "<!" ++ k ++ x1 ++ $ ">"). split; [constructor; assumption|]. intro y. rewrite <- !app_assoc.
    destruct (exists_last (l := k)) as (k' & c & ->); [intros ->; inversion K|].
    assert (C : is_space c = false).
    { unfold cased in K. change ($ "doctype") with ($ "doctyp" ++ [101]) in K. apply Forall2_app_inv_l in K as (u & v & _ & K & E). inversion K as [|? z ? ? Z K0]; subst. inversion K0; subst.
      apply app_inj_tail in E as [_ ->]. destruct Z as [->|[_ Z]]; [reflexivity|]. change 101 with (69 + 32) in Z. apply N.add_cancel_r in Z. subst z. reflexivity. }
    replace ($ "<!" ++ (k' ++ [c]) ++ x ++ $ ">" ++ y) with (($ "<!" ++ k') ++ c :: x ++ 62 :: y) by (cbn [app L]; rewrite <- !app_assoc; reflexivity).
    replace ($ "<!" ++ (k' ++ [c]) ++ x1 ++ $ ">" ++ y) with (($ "<!" ++ k') ++ c :: x1 ++ 62 :: y) by (cbn [app L]; rewrite <- !app_assoc; reflexivity).
    apply (H2 c ($ "<!" ++ k') 62 y); [exact C|reflexivity].
  - exists ($ "<?" ++ x1 ++ $ ">"). split; [constructor; exact H1|]. intro y. cbn [app L]. rewrite <- !app_assoc. apply (H2 63 [60] 62 y); reflexivity.
  - exists ($ "<!" ++ x1 ++ $ ">"). split; [constructor; [exact H1|exact (start_kept x x1 HN D)]|]. intro y. cbn [app L]. rewrite <- !app_assoc. apply (H2 33 [60] 62 y); reflexivity.
  - destruct (section_name n k _ I eq_refl K) as (K1 & K2 & _). destruct (name_last k K1 K2) as (k' & c & -> & C).
    exists ($ "<![" ++ (k' ++ [c]) ++ x1 ++ $ "]" ++ w1 ++ $ ">"). split; [apply (condition_unseen1 n); auto; exact (ends_kept x x1 HN E)|]. intro y.
    pose proof (H2 c ($ "<![" ++ k') 93 (w ++ 62 :: y) C eq_refl) as X1. pose proof (G2 93 ($ "<![" ++ k' ++ [c] ++ x1) 62 y eq_refl eq_refl) as X2.
    repeat (rewrite <- ?app_assoc in X1; cbn [app L] in X1). repeat (rewrite <- ?app_assoc in X2; cbn [app L] in X2). repeat (rewrite <- ?app_assoc; cbn [app L]). eapply same_trans; [exact X1|exact X2].
  - destruct (quiet_same v (blank_quiet v V)) as (v1 & F1 & _ & F3 & F2). specialize (F3 V).
    destruct (section_name n k _ I eq_refl K) as (K1 & K2 & _). destruct (name_last k K1 K2) as (k' & c & -> & C).
    exists ($ "<![" ++ (k' ++ [c]) ++ x1 ++ $ "]" ++ v1 ++ $ "]" ++ w1 ++ $ ">"). split; [apply (section_unseen1 n); auto; exact (ends_kept x x1 HN E)|]. intro y.
    pose proof (H2 c ($ "<![" ++ k') 93 (v ++ 93 :: w ++ 62 :: y) C eq_refl) as X1. pose proof (F2 93 ($ "<![" ++ k' ++ [c] ++ x1) 93 (w ++ 62 :: y) eq_refl eq_refl) as X2.
    pose proof (G2 93 ($ "<![" ++ k' ++ [c] ++ x1 ++ [93] ++ v1) 62 y eq_refl eq_refl) as X3.
    repeat (rewrite <- ?app_assoc in X1; cbn [app L] in X1). repeat (rewrite <- ?app_assoc in X2; cbn [app L] in X2). repeat (rewrite <- ?app_assoc in X3; cbn [app L] in X3).
    repeat (rewrite <- ?app_assoc; cbn [app L]). eapply same_trans; [exact X1|]. eapply same_trans; [exact X2|exact X3].
Qed.
Lemma unseens_line : forall h, unseens h -> exists h1, unseens1 h1 /\ (h = [] -> h1 = []) /\ forall y, same_squash (h ++ y) (h1 ++ y).
Proof.
  intros h U. induction U as [|h t U _ (t1 & T1 & _ & T2)].
  - exists []. split; [constructor|]. split; [reflexivity|]. intros y seen p. reflexivity.
  - destruct (unseen_line h U) as (h1 & H1 & H2). exists (h1 ++ t1). split; [constructor; assumption|]. split; [destruct U; discriminate|].
    intros y seen p. rewrite <- !app_assoc. rewrite H2. apply same_app. apply T2.
Qed.
Lemma more_line : forall l b s, fits_more b l s -> exists s1, fits_more1 b l s1 /\ same_squash s s1.
Proof.
  induction l as [|p l IH]; intros b s F; cbn [fits_more fits_more1] in *.
  - destruct F as [U B]. destruct (unseens_line s U) as (h1 & H1 & H2 & H3). exists h1. split; [split; [exact H1|intro E; apply H2, B, E]|]. specialize (H3 []). rewrite !app_nil_r in H3. exact H3.
  - destruct p as [n v|n|n v|w|].
    4: { destruct F as (u & -> & Fu). destruct (IH _ _ Fu) as (u1 & U1 & U2). exists (w ++ u1). split; [exists u1; auto|]. apply same_app. exact U2. }
    4: { destruct F as (w & u & W & -> & Fu). destruct (IH _ _ Fu) as (u1 & U1 & U2). exists (w ++ u1). split; [exists w, u1; auto|]. apply same_app. exact U2. }
    all: destruct F as (h & w & u & U & B & W & -> & Fu); destruct (IH _ _ Fu) as (u1 & U1 & U2); destruct (unseens_line h U) as (h1 & H1 & H2 & H3); exists (h1 ++ w ++ u1);
      (split; [exists h1, w, u1; split; [exact H1|]; split; [intro E; apply H2, B, E|]; split; [exact W|]; split; [reflexivity|exact U1]|]);
      intros seen q; rewrite H3; rewrite !(app_assoc h1); apply same_app; exact U2.
Qed.
Lemma squash_pre : forall (a b : str), exists a', squash false [] (a ++ $ "<pre>" ++ b) = a' ++ $ "<pre>" ++ squash true [] b.
Proof. intros a b. destruct (squash_to a false [] 60 ($ "pre>" ++ b) eq_refl) as (a' & E). exists a'. etransitivity; [exact E|]. reflexivity. Qed.
Theorem annotated_feed : forall t s ds, tq QGap t = true -> fits_more true t s -> flat_map part_src t = show_doms ds -> forallb dom_wf ds = true -> apart ds = true ->
  feed s = feed_tokens (show_doms ds) [].
Proof.
  intros t s0 ds T F0 E W A. destruct (more_line t true s0 F0) as (s & F & SQ). specialize (SQ false []).
  destruct (more_spell t true s (tq_parts t QGap T) F) as (ps & ps' & S1 & S2 & S3). pose proof (spell_fits t ps S1) as F1.
  destruct (strip_hidden ps ps' S3) as (rs & rs' & R1 & R2 & R3).
  rewrite (strip_html_parts _ _ T F1), E in R1. assert (FR : Forall pc_fine rs) by (destruct R3 as (r0 & hs & e & H & _); eapply hp_fine; exact H).
  assert (Q : rs = flat_map dpcs ds).
  { apply sep_inj.
    - eapply Forall_impl; [|exact FR]. exact fine_sep.
    - clear - W. induction ds as [|d ds IH]; [constructor|]. cbn [forallb] in W. apply andb_true_iff in W as [W1 W2]. cbn [flat_map]. apply Forall_app. split; [apply dpcs_sep; exact W1|apply IH; exact W2].
    - rewrite <- R1. symmetry. apply pcs_flat. apply Forall_forall. intros d _. apply dpcs_src. }
  unfold feed. rewrite preprocess_plain.
  2: { intros a b X. destruct (squash_pre a b) as (a' & X'). rewrite <- X, SQ, <- S2, squash_pcs in X' by (apply (hq_fine _ _ _ S3)).
       pose proof (sqp_hq ps true ps' false [] S3 eq_refl (fun _ => eq_refl)) as Q'. exact (hq_never_pre _ _ _ Q' a' _ X'). }
  cbn [bind]. rewrite strip_html_eq, SQ, <- strip_html_eq, <- S2, R2. subst rs. apply feed_hidden; assumption.
Qed.
Theorem annotated_tree : forall d html, d <> [] -> shape_doc d = true -> annotated d html ->
  parse_html html = Ok (HN ($ "document") None [] None (flat_map (dom_tree [] 0) (map b2d d))).
Proof.
  intros d html N C W. pose proof (doc_tq d C N) as T.
  assert (Wf : forallb dom_wf (map b2d d) = true) by (eapply map_wf; [apply b_wf|exact C]).
  assert (Ap : apart (map b2d d) = true) by (apply apart_elems; intros [] ?; discriminate).
  unfold parse_html. rewrite (annotated_feed _ _ (map b2d d) T W (doc_src d) Wf Ap).
  unfold feed_tokens. rewrite document_run by assumption.
  destruct (tree_of_dom [] (map b2d d)) as (h & H1 & H2 & _); [eapply map_ok; [apply b_ok|exact C]|]. rewrite H1. cbn [bind]. rewrite H2. reflexivity.
Qed.
Theorem annotated_results : forall d html html' (u : unknown) (strict : bool), d <> [] -> shape_doc d = true -> annotated d html -> spelled d html' ->
  html2creole u strict html = html2creole u strict html' /\ html2textile u html = html2textile u html' /\
  html2markdown u html = html2markdown u html' /\ html2rest u html = html2rest u html'.
Proof.
  intros d html html' u strict N C S0 S'. assert (E : parse_html html = parse_html html') by (rewrite (annotated_tree d html N C S0), (spelled_tree d html' C S'); reflexivity).
  unfold html2creole, html2textile, html2markdown, html2rest. rewrite E. repeat split; reflexivity.
Qed.
