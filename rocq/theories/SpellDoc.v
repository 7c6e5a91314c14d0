(** * Documents in any spelling *)
From Coq Require Import String List Arith NArith ZArith Bool Lia.
From Verif Require Import PyStr PyStrFacts GNames Regex RegexFacts RegexRun Rules Utils Res Entities HtmlTools HtmlToolsFacts HtmlTok HtmlTokFacts.
From Verif Require Import HtmlParser Safety Spec2 TreeFacts Spec10 TokRun TagTok StripRun Spec11 CleanRun CleanDoc Spec41 Coded Spec29 Spelling HtmlBase Html2X.
Import ListNotations.
Open Scope N_scope.

(** ** the pieces of a document tree *)
Fixpoint dpcs (d : dom) : list pc :=
  match d with
  | DText s => map Ch s
  | DChar _ | DEnt _ => map Ch (show_dom d)
  | DVoid t a => [Tg false t (show_attrs a)]
  | DSelf t a => [Tg false t (show_attrs a ++ $ " /")]
  | DCut b i => [Tg false (placeholder b) (show_attrs (cut_attrs i) ++ $ " /")]
  | DElem t a ks => Tg false t (show_attrs a) :: flat_map dpcs ks ++ [Tg true t []]
  end.
Lemma self_src : forall t a, tag_src false t (show_attrs a ++ $ " /") = show_dom (DSelf t a).
Proof. intros. unfold tag_src. cbn [show_dom app L]. rewrite <- !app_assoc. reflexivity. Qed.
Lemma pcs_flat : forall l, Forall (fun d => pcs_src (dpcs d) = show_dom d) l -> pcs_src (flat_map dpcs l) = show_doms l.
Proof. intros l H. induction H as [|d l H _ IH]; [reflexivity|]. cbn [flat_map]. rewrite pcs_app, H, IH. reflexivity. Qed.
Lemma dpcs_src : forall d, pcs_src (dpcs d) = show_dom d.
Proof.
  induction d as [s|s|s|t a|t a|b i|t a ks IH] using dom_ind'; cbn [dpcs].
  - apply chars_src.
  - apply chars_src.
  - apply chars_src.
  - rewrite one_pc. unfold tag_src. cbn [show_dom app L]. reflexivity.
  - rewrite one_pc. apply self_src.
  - rewrite one_pc, self_src, <- show_cut. reflexivity.
  - change (tag_src false t (show_attrs a) ++ pcs_src (flat_map dpcs ks ++ [Tg true t []]) = show_dom (DElem t a ks)).
    rewrite pcs_app, one_pc, (pcs_flat ks IH). unfold tag_src. cbn [show_dom app L]. unfold show_doms. rewrite <- !app_assoc. reflexivity.
Qed.
(** enough to tell the pieces apart *)
Definition tag_sep (c : bool) (n a : str) : Prop :=
  n <> [] /\ forallb (fun c => negb ((c =? 32) || (c =? 62))) n = true /\ (c = false -> stop (N.eqb 47) n) /\
  (a = [] \/ exists t, a = 32 :: t) /\ forallb (fun c => negb (c =? 62)) a = true.
Definition pc_sep (x : pc) : Prop := match x with Ch c => c <> 60 | Tg c n a => tag_sep c n a end.
Lemma fine_sep : forall x, pc_fine x -> pc_sep x.
Proof.
  intros [c|c n a] H; [exact H|]. destruct H as (H1 & H2 & H3 & H4 & H5). cbn [pc_sep]. repeat split; auto. eapply forallb_impl; [|exact H5].
  intros x Hx. cbv beta in Hx. destruct (x =? 62); [rewrite orb_true_r in Hx; discriminate Hx|reflexivity].
Qed.
Lemma sep_more : forall (a1 a2 u1 u2 : str), forallb (fun c => negb (c =? 62)) a1 = true -> forallb (fun c => negb (c =? 62)) a2 = true ->
  a1 ++ 62 :: u1 = a2 ++ 62 :: u2 -> a1 = a2 /\ u1 = u2.
Proof.
  induction a1 as [|x a1 IH]; intros a2 u1 u2 H1 H2 E; destruct a2 as [|y a2]; cbn [app] in E.
  - injection E as E. auto.
  - injection E as <- E. cbn [forallb] in H2. apply andb_true_iff in H2 as [H2 _]. discriminate H2.
  - injection E as -> E. cbn [forallb] in H1. apply andb_true_iff in H1 as [H1 _]. discriminate H1.
  - injection E as -> E. cbn [forallb] in H1, H2. apply andb_true_iff in H1 as [_ H1]. apply andb_true_iff in H2 as [_ H2]. destruct (IH a2 u1 u2 H1 H2 E) as [-> ->]. auto.
Qed.
Lemma sep_tag : forall c1 n1 a1 c2 n2 a2 u1 u2, tag_sep c1 n1 a1 -> tag_sep c2 n2 a2 -> tag_src c1 n1 a1 ++ u1 = tag_src c2 n2 a2 ++ u2 ->
  c1 = c2 /\ n1 = n2 /\ a1 = a2 /\ u1 = u2.
Proof.
  intros c1 n1 a1 c2 n2 a2 u1 u2 (N1 & C1 & S1 & M1 & R1) (N2 & C2 & S2 & M2 & R2) E. unfold tag_src in E. cbn [app] in E. injection E as E. rewrite <- !app_assoc in E. cbn [app] in E.
  assert (K : forall n1 n2 a1 a2, forallb (fun c => negb ((c =? 32) || (c =? 62))) n1 = true -> forallb (fun c => negb ((c =? 32) || (c =? 62))) n2 = true ->
    (a1 = [] \/ exists t, a1 = 32 :: t) -> (a2 = [] \/ exists t, a2 = 32 :: t) -> forallb (fun c => negb (c =? 62)) a1 = true -> forallb (fun c => negb (c =? 62)) a2 = true ->
    n1 ++ a1 ++ 62 :: u1 = n2 ++ a2 ++ 62 :: u2 -> n1 = n2 /\ a1 = a2 /\ u1 = u2).
  { clear. intros n1 n2 a1 a2 C1 C2 M1 M2 R1 R2 E. destruct (name_split n1 n2 (a1 ++ 62 :: u1) (a2 ++ 62 :: u2) C1 C2) as [-> E']; [| |exact E|].
    - destruct M1 as [->|(t & ->)]; eexists _, _; (split; [reflexivity|]); auto.
    - destruct M2 as [->|(t & ->)]; eexists _, _; (split; [reflexivity|]); auto.
    - destruct (sep_more a1 a2 u1 u2 R1 R2 E') as [-> ->]. auto. }
  destruct c1, c2; cbn [app] in E.
  - injection E as E. destruct (K _ _ _ _ C1 C2 M1 M2 R1 R2 E) as (-> & -> & ->). auto.
  - exfalso. specialize (S2 eq_refl). destruct n2 as [|x n2]; [congruence|]. cbn [app] in E. injection E as <- E. discriminate S2.
  - exfalso. specialize (S1 eq_refl). destruct n1 as [|x n1]; [congruence|]. cbn [app] in E. injection E as -> E. discriminate S1.
  - destruct (K _ _ _ _ C1 C2 M1 M2 R1 R2 E) as (-> & -> & ->). auto.
Qed.
Lemma sep_inj : forall l l', Forall pc_sep l -> Forall pc_sep l' -> pcs_src l = pcs_src l' -> l = l'.
Proof.
  induction l as [|x l IH]; intros l' F F' E.
  - destruct l' as [|[c|c n a] l']; [reflexivity|discriminate E|discriminate E].
  - inversion_clear F as [|? ? F1 F2]. destruct l' as [|y l']; [destruct x; discriminate E|]. inversion_clear F' as [|? ? F3 F4].
    change (pc_src x ++ pcs_src l = pc_src y ++ pcs_src l') in E. destruct x as [c|c n a], y as [d|d m b]; cbn [pc_src pc_sep] in *.
    + cbn [app] in E. injection E as -> E. f_equal. apply IH; assumption.
    + exfalso. cbn [app tag_src] in E. injection E as -> E. congruence.
    + exfalso. cbn [app tag_src] in E. injection E as <- E. congruence.
    + destruct (sep_tag c n a d m b _ _ F1 F3 E) as (-> & -> & -> & E'). f_equal. apply IH; assumption.
Qed.
Lemma attrs62 : forall a, forallb attr_ok a = true -> (show_attrs a = [] \/ exists t, show_attrs a = 32 :: t) /\ forallb (fun c => negb (c =? 62)) (show_attrs a) = true.
Proof.
  intros a H. split; [destruct a as [|nv a]; [left; reflexivity|right]; eexists; reflexivity|].
  induction a as [|[n v] a IH]; [reflexivity|]. cbn [forallb] in H. apply andb_true_iff in H as [H1 H2]. unfold show_attrs. cbn [flat_map fst snd].
  unfold attr_ok in H1. cbn [fst snd] in H1. apply andb_true_iff in H1 as [H1 _].
  apply name_ok_chars in H1 as [H1 _]. rewrite !forallb_app. unfold show_attrs in IH. rewrite (IH H2).
  assert (E1 : forallb (fun c => negb (c =? 62)) n = true).
  { eapply forallb_impl; [|exact H1]. intros c Hc. apply name_char_range in Hc. cls. }
  rewrite E1. assert (E2 : forallb (fun c => negb (c =? 62)) (flat_map attr_entity (value_of v)) = true).
  { generalize (value_of v). clear. induction s as [|c s IH]; [reflexivity|]. cbn [flat_map]. rewrite forallb_app, IH, andb_true_r. unfold attr_entity.
    destruct (c =? 38); [reflexivity|]. destruct (c =? 60); [reflexivity|]. destruct (c =? 62) eqn:E; [reflexivity|]. destruct (c =? 34); [reflexivity|].
    cbn [forallb]. rewrite E. reflexivity. }
  rewrite E2. reflexivity.
Qed.
Lemma chars_sep : forall s : str, ~ In 60 s -> Forall pc_sep (map Ch s).
Proof. intros s H. apply Forall_forall. intros x I. apply in_map_iff in I as (c & <- & I). cbn [pc_sep]. intros ->. exact (H I). Qed.
Lemma tag_sep_of : forall c t a z, tag_ok t = true -> forallb attr_ok a = true -> (z = [] \/ z = $ " /") -> tag_sep c t (show_attrs a ++ z).
Proof.
  intros c t a z Ht Ha Hz. apply tag_ok_parts in Ht as (Ht & _). apply name_fine in Ht as (N1 & N2 & N3 & _). destruct (attrs62 a Ha) as [A1 A2].
  repeat split; auto.
  - destruct Hz as [->| ->]; destruct A1 as [->|(u & ->)]; auto; right; eexists; reflexivity.
  - rewrite forallb_app, A2. destruct Hz as [->| ->]; reflexivity.
Qed.
Lemma dpcs_sep : forall d, dom_wf d = true -> Forall pc_sep (dpcs d).
Proof.
  induction d as [s|s|s|t a|t a|b i|t a ks IH] using dom_ind'; intro W; cbn [dpcs dom_wf] in *.
  - apply andb_true_iff in W as [_ W]. apply chars_sep. intro I. rewrite forallb_forall in W. specialize (W _ I). discriminate W.
  - apply chars_sep. cbn [show_dom app L]. intros [I|[I|I]]; [discriminate|discriminate|]. apply in_app_or in I as [I|[I|[]]]; [|discriminate].
    unfold all_digits in W. apply orb_true_iff in W as [W|W].
    + apply andb_true_iff in W as [_ W]. rewrite forallb_forall in W. specialize (W _ I). discriminate W.
    + destruct s as [|x s]; [discriminate|]. assert (E : x = 120). { destruct x as [|p]; [discriminate|]. do 7 (destruct p as [p|p|]; try discriminate). reflexivity. }
      subst x. destruct I as [I|I]; [discriminate|]. apply andb_true_iff in W as [_ W]. rewrite forallb_forall in W. specialize (W _ I). discriminate W.
  - apply chars_sep. cbn [show_dom app L]. intros [I|I]; [discriminate|]. apply in_app_or in I as [I|[I|[]]]; [|discriminate].
    destruct s as [|x s]; [discriminate|]. apply andb_true_iff in W as [W1 W]. destruct I as [I|I]; [subst x; discriminate W1|]. rewrite forallb_forall in W. specialize (W _ I). discriminate W.
  - apply andb_true_iff in W as [W1 W2]. constructor; [|constructor]. cbn [pc_sep]. rewrite <- (app_nil_r (show_attrs a)). apply tag_sep_of; auto.
  - apply andb_true_iff in W as [W1 W2]. constructor; [|constructor]. cbn [pc_sep]. apply tag_sep_of; auto.
  - constructor; [|constructor]. cbn [pc_sep]. apply tag_sep_of; auto; destruct b; reflexivity.
  - rewrite !andb_true_iff in W. destruct W as [[[W1 W2] W3] W4]. constructor; [|apply Forall_app; split].
    + cbn [pc_sep]. rewrite <- (app_nil_r (show_attrs a)). apply tag_sep_of; auto.
    + clear - IH W3. induction IH as [|d l H _ IHl]; [constructor|]. cbn [forallb] in W3. apply andb_true_iff in W3 as [W5 W6]. cbn [flat_map]. apply Forall_app. auto.
    + constructor; [|constructor]. cbn [pc_sep]. apply (tag_sep_of true t [] []); auto.
Qed.

(** ** the tokens *)
Lemma chars_like : forall s rs, Forall2 like (map Ch s) rs -> rs = map Ch s.
Proof.
  induction s as [|c s IH]; intros rs H; inversion H as [|? y ? l' L R]; subst; [reflexivity|]. inversion L; subst. cbn [map]. f_equal. apply IH. exact R.
Qed.
Lemma tag_run : forall c n a rs tk, Forall2 like [Tg c n a] rs -> (forall y, one None (tag_src c n a ++ y) = Next [tk] y None) ->
  exists ts, Forall2 toklike [tk] ts /\ forall y, toks None (pcs_src rs ++ y) = more ts (toks None y).
Proof.
  intros c n a rs tk H T. inversion H as [|? ? ? ? L R]; subst. inversion R; subst. inversion L as [|? ? ? n' a' TL]; subst.
  destruct (tl_tok _ _ _ _ _ TL) as (ts & ts' & cd & K1 & K2 & K3). pose proof (K2 []) as K4. rewrite T in K4. injection K4 as <- <-.
  exists ts'. split; [exact K1|]. intro y. rewrite one_pc. apply toks_next; [discriminate|left; reflexivity|apply K3].
Qed.
Definition read_as (d : dom) (rs : list pc) : Prop :=
  exists ts, Forall2 toklike (dom_toks d) ts /\ forall y, (is_text d = true -> markup y) -> toks None (pcs_src rs ++ y) = more ts (toks None y).
Lemma like_markup : forall d rs y, dom_wf d = true -> is_text d = false -> Forall2 like (dpcs d) rs -> markup (pcs_src rs ++ y).
Proof.
  intros d rs y W T H. assert (K : forall c n a l, Forall2 like (Tg c n a :: l) rs -> markup (pcs_src rs ++ y)).
  { intros c n a l F. inversion F as [|? z ? ? L _]; subst. inversion L; subst. left. reflexivity. }
  destruct d as [s|s|s|t a|t a|b i|t a ks]; try discriminate T; cbn [dpcs] in H; try (eapply K; exact H).
  - apply chars_like in H. subst rs. rewrite chars_src. right. reflexivity.
  - apply chars_like in H. subst rs. rewrite chars_src. right. reflexivity.
Qed.
Lemma reads_list : forall ks, Forall (fun d => dom_wf d = true -> forall rs, Forall2 like (dpcs d) rs -> read_as d rs) ks ->
  forallb dom_wf ks = true -> apart ks = true -> forall rs, Forall2 like (flat_map dpcs ks) rs ->
  exists ts, Forall2 toklike (flat_map dom_toks ks) ts /\ forall y, markup y -> toks None (pcs_src rs ++ y) = more ts (toks None y).
Proof.
  induction ks as [|d ks IH]; intros F W A rs H.
  - inversion H; subst. exists []. split; [constructor|]. intros y _. unfold more. cbn [pcs_src flat_map app]. destruct (toks None y). reflexivity.
  - inversion_clear F as [|? ? F1 F2]. cbn [forallb] in W. apply andb_true_iff in W as [W1 W2]. cbn [flat_map] in H. apply Forall2_app_inv_l in H as (r1 & r2 & H1 & H2 & ->).
    assert (A' : apart ks = true) by (destruct d; try exact A; destruct ks as [|[] ?]; try discriminate A; exact A).
    destruct (F1 W1 r1 H1) as (t1 & T1 & E1). destruct (IH F2 W2 A' r2 H2) as (t2 & T2 & E2).
    exists (t1 ++ t2). split; [cbn [flat_map]; apply Forall2_app; assumption|]. intros y Hy. rewrite pcs_app, <- app_assoc. rewrite E1.
    + rewrite E2 by exact Hy. apply more_more.
    + intro T. destruct d; try discriminate T. destruct ks as [|e ks]; [inversion H2; subst; exact Hy|].
      cbn [flat_map] in H2. apply Forall2_app_inv_l in H2 as (r3 & r4 & H3 & H4 & ->). rewrite pcs_app, <- app_assoc.
      cbn [forallb] in W2. apply andb_true_iff in W2 as [W2 _]. eapply like_markup; [exact W2| |exact H3]. destruct e; [discriminate A|reflexivity..].
Qed.
Lemma void_one : forall t a y, tag_ok t = true -> forallb attr_ok a = true -> one None (tag_src false t (show_attrs a) ++ y) = Next [TStart t a] y None.
Proof. intros t a y H1 H2. rewrite <- (one_start t a false y H1 H2). unfold tag_src. cbn [app fin_sp fin_end]. rewrite <- !app_assoc. reflexivity. Qed.
Lemma self_one : forall t a y, tag_ok t = true -> forallb attr_ok a = true -> one None (tag_src false t (show_attrs a ++ $ " /") ++ y) = Next [TStartEnd t a] y None.
Proof. intros t a y H1 H2. rewrite <- (one_start t a true y H1 H2). unfold tag_src. cbn [app fin_sp fin_end L]. rewrite <- !app_assoc. reflexivity. Qed.
Lemma end_one : forall t y, tag_ok t = true -> one None (tag_src true t [] ++ y) = Next [TEnd t] y None.
Proof. intros t y H. apply tag_ok_parts in H as [H _]. rewrite <- (one_end t y H). unfold tag_src. cbn [app]. rewrite <- !app_assoc. reflexivity. Qed.
Lemma reads : forall d, dom_wf d = true -> forall rs, Forall2 like (dpcs d) rs -> read_as d rs.
Proof.
  assert (CH : forall d, dom_wf d = true -> dpcs d = map Ch (show_dom d) -> forall rs, Forall2 like (dpcs d) rs -> read_as d rs).
  { intros d W E rs H. rewrite E in H. apply chars_like in H. subst rs. exists (dom_toks d). split; [apply toklike_refl|]. intros y Hy. rewrite chars_src. apply dom_run; assumption. }
  assert (TG : forall d c n a tk, dpcs d = [Tg c n a] -> dom_toks d = [tk] -> (forall y, one None (tag_src c n a ++ y) = Next [tk] y None) -> forall rs, Forall2 like (dpcs d) rs -> read_as d rs).
  { intros d c n a tk E1 E2 T rs H. rewrite E1 in H. destruct (tag_run c n a rs tk H T) as (ts & K1 & K2). exists ts. rewrite E2. split; [exact K1|]. intros y _. apply K2. }
  induction d as [s|s|s|t a|t a|b i|t a ks IH] using dom_ind'; intros W rs H.
  - eapply CH; [exact W|reflexivity|exact H].
  - eapply CH; [exact W|reflexivity|exact H].
  - eapply CH; [exact W|reflexivity|exact H].
  - cbn [dom_wf] in W. apply andb_true_iff in W as [W1 W2]. eapply TG; [reflexivity|reflexivity|intro y; apply void_one; assumption|exact H].
  - cbn [dom_wf] in W. apply andb_true_iff in W as [W1 W2]. eapply TG; [reflexivity|reflexivity|intro y; apply self_one; assumption|exact H].
  - eapply TG; [reflexivity|reflexivity|intro y; apply self_one; destruct b; reflexivity|exact H].
  - cbn [dom_wf] in W. rewrite !andb_true_iff in W. destruct W as [[[W1 W2] W3] W4]. cbn [dpcs] in H.
    change (Tg false t (show_attrs a) :: flat_map dpcs ks ++ [Tg true t []]) with ([Tg false t (show_attrs a)] ++ flat_map dpcs ks ++ [Tg true t []]) in H.
    apply Forall2_app_inv_l in H as (r1 & r0 & H1 & H0 & ->). apply Forall2_app_inv_l in H0 as (r2 & r3 & H2 & H3 & ->).
    destruct (tag_run _ _ _ r1 (TStart t a) H1 (fun y => void_one t a y W1 W2)) as (t1 & T1 & E1).
    destruct (reads_list ks IH W3 W4 r2 H2) as (t2 & T2 & E2).
    destruct (tag_run _ _ _ r3 (TEnd t) H3 (fun y => end_one t y W1)) as (t3 & T3 & E3).
    exists (t1 ++ t2 ++ t3). split.
    + cbn [dom_toks]. change (TStart t a :: flat_map dom_toks ks ++ [TEnd t]) with ([TStart t a] ++ flat_map dom_toks ks ++ [TEnd t]). repeat apply Forall2_app; assumption.
    + intros y _. rewrite !pcs_app, <- !app_assoc. rewrite E1, E2, E3, !more_more; [rewrite <- ?app_assoc; reflexivity|].
      inversion H3 as [|? z ? ? L _]; subst. inversion L; subst. left. reflexivity.
Qed.
Lemma handle_like : forall a b h, toklike a b -> handle a h = handle b h.
Proof. intros a b h [->|(x & [->| ->] & [->| ->])]; reflexivity. Qed.
Lemma handle_all_like : forall l l' h, Forall2 toklike l l' -> handle_all l h = handle_all l' h.
Proof.
  intros l l' h H. revert h. induction H as [|a b l l' L _ IH]; intro h; [reflexivity|]. cbn [handle_all]. rewrite (handle_like a b h L).
  destruct (handle b h) as [h'|]; [apply IH|reflexivity].
Qed.
Theorem feed_like : forall ds rs bd, forallb dom_wf ds = true -> apart ds = true -> Forall2 like (flat_map dpcs ds) rs ->
  feed_tokens (pcs_src rs) bd = feed_tokens (show_doms ds) bd.
Proof.
  intros ds rs bd W A H. destruct (reads_list ds) with (rs := rs) as (ts & T & E); [|exact W|exact A|exact H|].
  { apply Forall_forall. intros d _. apply reads. }
  unfold feed_tokens. rewrite document_run by assumption. specialize (E [] I). rewrite app_nil_r in E.
  assert (K : tokens (pcs_src rs) = (ts, false)).
  { etransitivity; [exact E|]. unfold more. cbn. rewrite app_nil_r. reflexivity. }
  rewrite K. rewrite (handle_all_like _ _ (h_init bd) T). reflexivity.
Qed.

(** ** no <pre> *)
Lemma like_never_pre : forall ps ps', Forall2 like ps ps' -> forall a b, pcs_src ps' <> a ++ $ "<pre>" ++ b.
Proof.
  intros ps ps' H. induction H as [|x y l l' L _ IH]; intros a b E; [destruct a; discriminate E|].
  destruct L as [c Hc|c n m n' m' T]; unfold pcs_src in *; cbn [flat_map pc_src] in E.
  - cbn [app] in E. destruct a as [|d a]; cbn [app L] in E; [injection E as -> _; congruence|]. injection E as -> E. exact (IH a b E).
  - destruct T as [_ F _ _ _ _ N60 NP _]. unfold tag_src in E. cbn [app] in E. rewrite <- !app_assoc in E. cbn [app] in E.
    destruct a as [|d a]; cbn [app L] in E.
    + injection E as E. destruct c; [discriminate E|]. cbn [app] in E. destruct F as (F1 & F2 & F3 & F4 & F5).
      assert (Q : n' = $ "pre"); [|exact (NP Q)].
      destruct (name_split n' ($ "pre") (m' ++ 62 :: flat_map pc_src l') (62 :: b) F2 eq_refl) as [Q _]; [| |exact E|exact Q].
      * destruct F4 as [->|(t & ->)]; eexists _, _; (split; [reflexivity|]); auto.
      * eexists _, _. split; [reflexivity|]. auto.
    + injection E as _ E.
      assert (X : no60 ((if c then [47] else []) ++ n' ++ m' ++ [62]) = true).
      { unfold no60 in *. rewrite !forallb_app in *. apply andb_true_iff in N60 as [N1 N2]. rewrite N1, N2. destruct c; reflexivity. }
      replace ((if c then [47] else []) ++ n' ++ m' ++ 62 :: flat_map pc_src l') with (((if c then [47] else []) ++ n' ++ m' ++ [62]) ++ flat_map pc_src l') in E by (rewrite <- !app_assoc; reflexivity).
      destruct (skip60 _ _ a (112 :: 114 :: 101 :: 62 :: b) X E) as (a' & -> & E'). exact (IH a' b E').
Qed.

(** ** parts in any spelling *)
Definition plain_c (c : N) : bool := negb ((c =? 10) || (c =? 60) || (c =? 62)).
Definition good (a : str) : Prop := (a = [] \/ exists t, a = 32 :: t) /\ forallb plain_c a = true.
Lemma plain_gap : forall n, forallb plain_c (gap n) = true.
Proof. induction n; [reflexivity|]. cbn. assumption. Qed.
Lemma plain_cname : forall n, cname n = true -> forallb plain_c n = true.
Proof. intros n H. apply cname_chars in H as [H _]. eapply forallb_impl; [|exact H]. intros c Hc. apply cchar_range in Hc. unfold plain_c. cls. Qed.
Lemma plain_entities : forall v, one_line v = true -> forallb plain_c (flat_map attr_entity v) = true.
Proof.
  induction v as [|c v IH]; intro H; [reflexivity|]. unfold one_line in H. cbn [forallb] in H. apply andb_true_iff in H as [H1 H2]. cbn [flat_map]. rewrite forallb_app, (IH H2), andb_true_r.
  unfold attr_entity. destruct (c =? 38); [reflexivity|]. destruct (c =? 60) eqn:E1; [reflexivity|]. destruct (c =? 62) eqn:E2; [reflexivity|]. destruct (c =? 34); [reflexivity|].
  cbn [forallb]. unfold plain_c. rewrite E1, E2. apply negb_true_iff in H1. rewrite H1. reflexivity.
Qed.
Lemma plain_coded : forall v w, coded v w -> forallb plain_c w = true.
Proof.
  intros v w C. apply coded_plain in C as (C1 & C2 & C3). apply forallb_forall. intros c I. unfold plain_c. apply negb_true_iff. rewrite !orb_false_iff, !N.eqb_neq.
  repeat split; intro E; subst c; contradiction.
Qed.
Lemma plain_value : forall v w, one_line v = true -> value_written v w -> forallb plain_c w = true /\ exists u z, w = u ++ [z] /\ z <> 47.
Proof.
  intros v w O [|N|B|q C Q|q C Q].
  - split; [rewrite !forallb_app, (plain_entities v O); reflexivity|]. eexists ($ """" ++ flat_map attr_entity v), 34. split; [rewrite <- app_assoc; reflexivity|discriminate].
  - split; [rewrite !forallb_app, (plain_entities v O); reflexivity|]. eexists ($ "'" ++ flat_map attr_entity v), 39. split; [rewrite <- app_assoc; reflexivity|discriminate].
  - destruct (bare_parts v B) as (c & r & Ev & _ & H & L). split.
    + unfold one_line in O. rewrite forallb_forall in *. intros x I. specialize (O x I). specialize (H x I). apply bare_char_parts in H. unfold plain_c. apply negb_true_iff in O. rewrite O. cls.
    + destruct (exists_last (l := v)) as (x & z & Ez); [rewrite Ev; discriminate|]. exists x, z. split; [exact Ez|]. rewrite Ez, last_last in L. exact L.
  - split; [rewrite !forallb_app, (plain_coded v q C); reflexivity|]. eexists ($ """" ++ q), 34. split; [rewrite <- app_assoc; reflexivity|discriminate].
  - split; [rewrite !forallb_app, (plain_coded v q C); reflexivity|]. eexists ($ "'" ++ q), 39. split; [rewrite <- app_assoc; reflexivity|discriminate].
Qed.
Lemma good_written : forall a s, attrs_written a s -> forallb attr_fine a = true -> good s /\ (s = [] \/ exists u z, s = u ++ [z] /\ z <> 47).
Proof.
  intros a s W. induction W as [|nv a s t W1 W2 IH]; intro A; [split; [split; [left|]; reflexivity|left; reflexivity]|].
  cbn [forallb] in A. apply andb_true_iff in A as [A1 A2]. destruct W1 as (i & n & j & k & w & -> & C & V). destruct (IH A2) as [[_ G] E].
  unfold attr_fine, attr_ok in A1. apply andb_true_iff in A1 as [A1 A3]. apply andb_true_iff in A1 as [A1 A4].
  destruct (plain_value _ w A3 V) as [P (u & z & -> & Z)]. split; [split|].
  - right. eexists. reflexivity.
  - rewrite !forallb_app. rewrite forallb_app in P. rewrite !plain_gap, (plain_cname n) by (eapply cased_name; eassumption). rewrite P, G. reflexivity.
  - right. destruct E as [->|(x & y & -> & Y)].
    + exists (gap (S i) ++ n ++ gap j ++ $ "=" ++ gap k ++ u), z. split; [rewrite app_nil_r, <- !app_assoc; reflexivity|exact Z].
    + exists ((gap (S i) ++ n ++ gap j ++ $ "=" ++ gap k ++ u ++ [z]) ++ x), y. split; [rewrite <- ?app_assoc; reflexivity|exact Y].
Qed.
Lemma good_app : forall s j, good s -> good (s ++ gap j).
Proof.
  intros s j [G1 G2]. split; [|rewrite forallb_app, G2; apply plain_gap]. destruct G1 as [->|(t & ->)]; [|right; eexists; reflexivity].
  destruct j; [left; reflexivity|right; eexists; reflexivity].
Qed.
Lemma end47 : forall (u : str) z, endswith [47] (u ++ [z]) = (47 =? z).
Proof. intros u z. unfold endswith. rewrite rev_app_distr. cbn [rev app startswith]. apply andb_true_r. Qed.
Lemma no_slash : forall s j, s = [] \/ (exists u z, s = u ++ [z] /\ z <> 47) -> endswith [47] (s ++ gap j) = false.
Proof.
  intros s j H. destruct j as [|j].
  - change (gap 0) with ([] : str). rewrite app_nil_r. destruct H as [->|(u & z & -> & Z)]; [reflexivity|]. rewrite end47. apply N.eqb_neq. congruence.
  - unfold gap. replace (S j) with (j + 1)%nat by lia. rewrite repeat_app. cbn [repeat]. rewrite app_assoc. apply end47.
Qed.
Lemma cased_refl : forall n, cased n n.
Proof. induction n; constructor; auto. Qed.
Lemma show_written : forall a, forallb attr_ok a = true -> attrs_written a (show_attrs a).
Proof.
  induction a as [|nv a IH]; intro H; [constructor|]. cbn [forallb] in H. apply andb_true_iff in H as [H1 H2].
  unfold show_attrs. cbn [flat_map]. constructor; [|exact (IH H2)]. exists 0%nat, (fst nv), 0%nat, 0%nat, ($ """" ++ flat_map attr_entity (value_of (snd nv)) ++ $ """").
  split; [|split; [apply cased_refl|constructor]]. cbn [app L gap repeat]. rewrite <- ?app_assoc. reflexivity.
Qed.
Lemma fine_ok : forall a, forallb attr_fine a = true -> forallb attr_ok a = true.
Proof. intros a H. eapply forallb_impl; [|exact H]. intros x Hx. unfold attr_fine in Hx. apply andb_true_iff in Hx. tauto. Qed.
Lemma blk_lower : forall n, blk n = true -> lower n = n.
Proof.
  intros n H. unfold blk, in_list in H. apply existsb_exists in H as (x & I & E). apply str_eqb_eq in E. subst x.
  cbv [BLOCK_TAGS] in I. repeat (destruct I as [<-|I]; [reflexivity|]). destruct I.
Qed.
Lemma written_name : forall t n, tag_name t = true -> name_written t n -> cname n = true /\ lower n = t /\ blk n = blk t /\ n <> $ "pre".
Proof.
  intros t n H [C B]. apply tag_name_ok in H as [H P]. pose proof (cased_name t n H C) as K. assert (E : lower n = t) by (apply lower_cased; [apply name_ok_chars in H; tauto|exact C]).
  split; [exact K|]. split; [exact E|]. split.
  - destruct (blk t) eqn:Bt; [rewrite (B Bt); exact Bt|]. destruct (blk n) eqn:Bn; [|reflexivity]. pose proof (blk_lower n Bn). congruence.
  - intros ->. apply P. symmetry. exact E.
Qed.
Lemma good_fine : forall c n a, cname n = true -> good a -> tag_fine c n a /\ nonl (n ++ a) = true /\ no60 (n ++ a) = true.
Proof.
  intros c n a N [G1 G2]. pose proof N as N'. apply cname_chars in N' as [N1 N2]. pose proof (plain_cname n N) as N3.
  assert (P : forallb plain_c (n ++ a) = true) by (rewrite forallb_app, N3; exact G2). repeat split.
  - exact N2.
  - eapply forallb_impl; [|exact N1]. intros x Hx. apply cchar_range in Hx. cls.
  - intros _. destruct n as [|x n]; [congruence|]. cbn [stop]. cbn [forallb] in N1. apply andb_true_iff in N1 as [N1 _]. apply cchar_range in N1. apply N.eqb_neq. lia.
  - exact G1.
  - eapply forallb_impl; [|exact G2]. intros x Hx. unfold plain_c in Hx. cbv beta in *. destruct (x =? 10), (x =? 60), (x =? 62); try discriminate Hx; reflexivity.
  - unfold nonl. eapply forallb_impl; [|exact P]. intros x Hx. unfold plain_c in Hx. cbv beta in *. destruct (x =? 10), (x =? 60), (x =? 62); try discriminate Hx; reflexivity.
  - unfold no60. eapply forallb_impl; [|exact P]. intros x Hx. unfold plain_c in Hx. cbv beta in *. destruct (x =? 10), (x =? 60), (x =? 62); try discriminate Hx; reflexivity.
Qed.
Lemma mk_like : forall c t n a a', tag_name t = true -> name_written t n -> good a -> good a' -> (blk t = false -> endswith [47] a' = endswith [47] a) ->
  (exists ts ts' cd, Forall2 toklike ts ts' /\ (forall y, one None (tag_src c t a ++ y) = Next ts y cd) /\ (forall y, one None (tag_src c n a' ++ y) = Next ts' y cd)) ->
  like (Tg c t a) (Tg c n a').
Proof.
  intros c t n a a' T W G G' S K. destruct (written_name t n T W) as (N1 & N2 & N3 & N4).
  assert (W0 : name_written t t) by (split; [apply cased_refl|reflexivity]). destruct (written_name t t T W0) as (M1 & _ & _ & _).
  destruct (good_fine c t a M1 G) as (F1 & F2 & _). destruct (good_fine c n a' N1 G') as (F3 & F4 & F5). constructor. constructor; assumption.
Qed.
Lemma tok_open : forall t n a s j (self : bool) y, tag_name t = true -> name_written t n -> forallb attr_ok a = true -> attrs_written a s ->
  (self = true -> j = 0%nat -> ends_quoted s) ->
  one None (tag_src false n (s ++ gap j ++ (if self then [47] else [])) ++ y) =
  Next [if self then TStartEnd t a else TStart t a] y (if self then None else if in_list [$ "script"; $ "style"] t then Some t else None).
Proof.
  intros t n a s j self y T W A AW Q. destruct (written_name t n T W) as (N1 & N2 & _ & _).
  destruct (written_items a s AW A self j) as (g & l & E & I & R & G1 & G2); [intros; right; auto|].
  assert (O : start_ok n g l self).
  { split; [exact N1|]. split; [exact I|]. intros [H|H]; [exact (G1 H)|]. destruct l as [|x l]; [|apply G1; discriminate]. rewrite (G2 eq_refl). intro J.
    specialize (Q H J). destruct Q as (u & Q). assert (a = []) by (rewrite <- R; reflexivity). subst a. assert (s = []) by (inversion AW; reflexivity). subst s.
    destruct Q as [Q|Q]; apply (f_equal (@List.length N)) in Q; rewrite app_length in Q; cbn in Q; lia. }
  pose proof (cone_start n g l self y O) as K. rewrite N2, R in K. rewrite <- K. f_equal. unfold start, tag_src. cbn [app]. f_equal. rewrite <- !app_assoc. f_equal.
  rewrite (app_assoc s), (app_assoc (repeat 32 g)). unfold gap. rewrite E. destruct self; reflexivity.
Qed.
Lemma name_self : forall t, name_written t t.
Proof. intro t. split; [apply cased_refl|reflexivity]. Qed.
Definition tag_part_ok (p : part) : bool :=
  match p with Open t a | Single t a => tag_name t && forallb attr_fine a | Close t => tag_name t | Txt w => no60 w | Ws => true end.
Lemma tok_close : forall t n j y, tag_name t = true -> name_written t n -> one None (tag_src true n (gap j) ++ y) = Next [TEnd t] y None.
Proof.
  intros t n j y T W. destruct (written_name t n T W) as (N1 & N2 & _ & _). pose proof (cone_end n j y N1) as K. rewrite N2 in K. rewrite <- K.
  unfold tag_src. cbn [app]. rewrite <- !app_assoc. reflexivity.
Qed.
Lemma part_like : forall p v, tag_part_ok p = true -> part_written p v -> exists ps, Forall2 like (pcs p) ps /\ pcs_src ps = v.
Proof.
  intros p v K W. destruct W as [t a n s j N A|t n j N|t a n s j N A Q|a s j A|w]; cbn [tag_part_ok pcs] in *.
  - apply andb_true_iff in K as [K1 K2]. pose proof (fine_ok a K2) as K3. pose proof (show_written a K3) as A0.
    destruct (good_written a _ A0 K2) as [G0 E0]. destruct (good_written a s A K2) as [G E].
    exists [Tg false n (s ++ gap j)]. split.
    + constructor; [|constructor]. apply mk_like; [exact K1|exact N|exact G0|apply good_app; exact G| |].
      * intros _. rewrite (no_slash s j E). pose proof (no_slash _ 0 E0) as Z. change (gap 0) with ([] : str) in Z. rewrite app_nil_r in Z. symmetry. exact Z.
      * eexists [TStart t a], [TStart t a], _. split; [apply toklike_refl|]. split; intro y.
        -- pose proof (tok_open t t a _ 0 false y K1 (name_self t) K3 A0 ltac:(discriminate)) as X. cbn [gap repeat app] in X. rewrite app_nil_r in X. exact X.
        -- pose proof (tok_open t n a s j false y K1 N K3 A ltac:(discriminate)) as X. rewrite app_nil_r in X. exact X.
    + rewrite one_pc. unfold tag_src. cbn [app L]. rewrite <- ?app_assoc. reflexivity.
  - exists [Tg true n (gap j)]. split.
    + constructor; [|constructor]. apply mk_like; [exact K|exact N|split; [left|]; reflexivity|apply (good_app [] j); split; [left|]; reflexivity| |].
      * intros _. apply (no_slash [] j). left. reflexivity.
      * eexists [TEnd t], [TEnd t], None. split; [apply toklike_refl|]. split; intro y; [exact (tok_close t t 0 y K (name_self t))|exact (tok_close t n j y K N)].
    + rewrite one_pc. unfold tag_src. cbn [app L]. rewrite <- ?app_assoc. reflexivity.
  - apply andb_true_iff in K as [K1 K2]. pose proof (fine_ok a K2) as K3. pose proof (show_written a K3) as A0.
    destruct (good_written a _ A0 K2) as [G0 E0]. destruct (good_written a s A K2) as [G E].
    assert (S0 : good (show_attrs a ++ $ " /")).
    { destruct (good_app (show_attrs a) 1 G0) as [X1 X2]. change ($ " /") with (gap 1 ++ [47]). rewrite app_assoc. split; [|rewrite forallb_app, X2; reflexivity].
      destruct X1 as [X1|(u & ->)]; [destruct (show_attrs a); discriminate X1|right; eexists; reflexivity]. }
    assert (S1 : good (s ++ gap j ++ [47])).
    { destruct (good_app s j G) as [X1 X2]. rewrite app_assoc. split; [|rewrite forallb_app, X2; reflexivity].
      destruct X1 as [X1|(u & ->)]; [|right; eexists; reflexivity]. exfalso. apply app_eq_nil in X1 as [X1 X3]. destruct j; [|discriminate]. destruct (Q eq_refl) as (u & Qu). rewrite X1 in Qu. destruct u; destruct Qu; discriminate. }
    exists [Tg false n (s ++ gap j ++ [47])]. split.
    + constructor; [|constructor]. apply mk_like; [exact K1|exact N|exact S0|exact S1| |].
      * intros _. rewrite app_assoc, end47. change ($ " /") with (gap 1 ++ [47]). rewrite app_assoc, end47. reflexivity.
      * eexists [TStartEnd t a], [TStartEnd t a], None. split; [apply toklike_refl|]. split; intro y.
        -- exact (tok_open t t a _ 1 true y K1 (name_self t) K3 A0 ltac:(discriminate)).
        -- exact (tok_open t n a s j true y K1 N K3 A (fun _ => Q)).
    + rewrite one_pc. unfold tag_src. cbn [app L]. rewrite <- ?app_assoc. reflexivity.
  - apply andb_true_iff in K as [K1 K2]. pose proof (fine_ok a K2) as K3. pose proof (show_written a K3) as A0.
    destruct (good_written a _ A0 K2) as [G0 E0]. destruct (good_written a s A K2) as [G E].
    assert (S0 : good (show_attrs a ++ $ " /")).
    { destruct (good_app (show_attrs a) 1 G0) as [X1 X2]. change ($ " /") with (gap 1 ++ [47]). rewrite app_assoc. split; [|rewrite forallb_app, X2; reflexivity].
      destruct X1 as [X1|(u & ->)]; [destruct (show_attrs a); discriminate X1|right; eexists; reflexivity]. }
    exists [Tg false ($ "br") (s ++ gap j)]. split.
    + constructor; [|constructor]. apply mk_like; [exact K1|apply name_self|exact S0|apply good_app; exact G|intro B; discriminate B|].
      eexists [TStartEnd ($ "br") a], [TStart ($ "br") a], None. split; [constructor; [|constructor]; right; exists a; split; [right|left]; reflexivity|]. split; intro y.
      * exact (tok_open ($ "br") ($ "br") a _ 1 true y K1 (name_self _) K3 A0 ltac:(discriminate)).
      * pose proof (tok_open ($ "br") ($ "br") a s j false y K1 (name_self _) K3 A ltac:(discriminate)) as X. rewrite app_nil_r in X. exact X.
    + rewrite one_pc. unfold tag_src. cbn [app L]. rewrite <- ?app_assoc. reflexivity.
  - exists (map Ch w). split; [apply like_chars; exact K|apply chars_src].
Qed.
Lemma tq_parts : forall t s, tq s t = true -> forallb tag_part_ok t = true.
Proof.
  induction t as [|p t IH]; intros s T; [reflexivity|]. cbn [forallb]. destruct (is_tag p) eqn:Et.
  - destruct (tq_tag p s t Et T) as [G T']. rewrite (IH _ T'), andb_true_r. destruct p; try discriminate Et; exact G.
  - destruct p as [n v|n|n v|w|]; try discriminate Et.
    + cbn [tq] in T. apply andb_true_iff in T as [T1 T]. apply andb_true_iff in T1 as [_ T1]. apply andb_true_iff. split.
      * cbn [tag_part_ok]. unfold no60. eapply forallb_impl; [|exact T1]. intros c Hc. cbv beta in *. destruct (c =? 60); [discriminate Hc|reflexivity].
      * destruct s as [|p| | | |]; try discriminate T.
        -- eapply IH. exact T.
        -- apply andb_true_iff in T as [_ T]. eapply IH. exact T.
        -- apply andb_true_iff in T as [_ T]. eapply IH. exact T.
        -- destruct (is_nil (lead w)); [eapply IH; exact T|]. destruct (str_eqb w [32]); [eapply IH; exact T|]. apply andb_true_iff in T as [_ T]. eapply IH. exact T.
        -- apply andb_true_iff in T as [_ T]. eapply IH. exact T.
    + cbn [tq] in T. cbn [tag_part_ok andb]. destruct s as [|[|]| | | |]; try discriminate T; eapply IH; exact T.
Qed.
Lemma spell_fits : forall t ps, spell t ps -> fits t (pcs_src ps).
Proof.
  intros t ps H. induction H as [|w r ps Hw _ IH|p r ps Hp _ IH]; [reflexivity| |].
  - cbn [fits]. exists w, (pcs_src ps). rewrite pcs_app, chars_src. auto.
  - assert (K : exists u, pcs_src (pcs p ++ ps) = part_src p ++ u /\ fits r u) by (exists (pcs_src ps); rewrite pcs_app, pcs_part; auto).
    destruct p; try exact K. congruence.
Qed.
Lemma any_spell : forall t s, forallb tag_part_ok t = true -> fits_any t s -> exists ps ps', spell t ps /\ pcs_src ps' = s /\ Forall2 like ps ps'.
Proof.
  induction t as [|p t IH]; intros s T F.
  - cbn [fits_any] in F. subst s. exists [], []. repeat split; constructor.
  - cbn [forallb] in T. apply andb_true_iff in T as [T1 T2].
    assert (K : p = Ws \/ p <> Ws /\ exists v u, part_written p v /\ s = v ++ u /\ fits_any t u).
    { destruct p; cbn [fits_any] in F; try (right; split; [discriminate|exact F]). left. reflexivity. }
    destruct K as [->|(Hp & v & u & W & -> & Fu)].
    + cbn [fits_any] in F. destruct F as (w & u & Hw & -> & Fu). destruct (IH u T2 Fu) as (ps & ps' & S1 & S2 & S3).
      exists (map Ch w ++ ps), (map Ch w ++ ps'). split; [constructor; assumption|]. split; [rewrite pcs_app, chars_src, S2; reflexivity|].
      apply Forall2_app; [apply like_chars, space60, Hw|exact S3].
    + destruct (IH u T2 Fu) as (ps & ps' & S1 & S2 & S3). destruct (part_like p v T1 W) as (qs & Q1 & Q2).
      exists (pcs p ++ ps), (qs ++ ps'). split; [constructor; assumption|]. split; [rewrite pcs_app, Q2, S2; reflexivity|apply Forall2_app; assumption].
Qed.
(** ** the theorem *)
Theorem spelled_feed : forall t s ds, tq QGap t = true -> fits_any t s -> flat_map part_src t = show_doms ds -> forallb dom_wf ds = true -> apart ds = true ->
  feed s = feed_tokens (show_doms ds) [].
Proof.
  intros t s ds T F E W A. destruct (any_spell t s (tq_parts t QGap T) F) as (ps & ps' & S1 & S2 & S3). pose proof (spell_fits t ps S1) as F0.
  destruct (strip_like ps ps' S3) as (rs & rs' & R1 & R2 & R3).
  rewrite (strip_html_parts _ _ T F0), E in R1. destruct (like_fine rs rs' R3) as [FR _].
  assert (Q : rs = flat_map dpcs ds).
  { apply sep_inj.
    - eapply Forall_impl; [|exact FR]. exact fine_sep.
    - clear - W. induction ds as [|d ds IH]; [constructor|]. cbn [forallb] in W. apply andb_true_iff in W as [W1 W2]. cbn [flat_map]. apply Forall_app. split; [apply dpcs_sep; exact W1|apply IH; exact W2].
    - rewrite <- R1. symmetry. apply pcs_flat. apply Forall_forall. intros d _. apply dpcs_src. }
  unfold feed. rewrite preprocess_plain by (intros a b; rewrite <- S2; eapply like_never_pre; exact S3). cbn [bind]. rewrite <- S2, R2.
  subst rs. apply feed_like; assumption.
Qed.
Theorem spelled_tree : forall d html, shape_doc d = true -> spelled d html ->
  parse_html html = Ok (HN ($ "document") None [] None (flat_map (dom_tree [] 0) (map b2d d))).
Proof.
  intros d html C W. destruct d as [|b0 d0] eqn:ED.
  - apply clean_tree; [reflexivity|]. exact W.
  - assert (N : d <> []) by (rewrite ED; discriminate). rewrite <- ED in *. clear ED b0 d0. pose proof (doc_tq d C N) as T.
    assert (Wf : forallb dom_wf (map b2d d) = true) by (eapply map_wf; [apply b_wf|exact C]).
    assert (Ap : apart (map b2d d) = true) by (apply apart_elems; intros [] ?; discriminate).
    unfold parse_html. rewrite (spelled_feed _ _ (map b2d d) T W (doc_src d) Wf Ap).
    unfold feed_tokens. rewrite document_run by assumption.
    destruct (tree_of_dom [] (map b2d d)) as (h & H1 & H2 & _); [eapply map_ok; [apply b_ok|exact C]|]. rewrite H1. cbn [bind]. rewrite H2. reflexivity.
Qed.
Theorem spelled_same : forall d html html0, shape_doc d = true -> spelled d html -> written d html0 -> parse_html html = parse_html html0.
Proof. intros d html html0 C S W. rewrite (spelled_tree d html C S), (clean_tree d html0 C W). reflexivity. Qed.
Lemma written_spelled : forall d html, written d html -> spelled d html.
Proof.
  assert (SW : forall a, attrs_written a (show_attrs a)).
  { induction a as [|nv a IH]; [constructor|]. unfold show_attrs. cbn [flat_map]. constructor; [|exact IH]. exists 0%nat, (fst nv), 0%nat, 0%nat, ($ """" ++ flat_map attr_entity (value_of (snd nv)) ++ $ """").
    split; [|split; [apply cased_refl|constructor]]. cbn [app L gap repeat]. rewrite <- ?app_assoc. reflexivity. }
  assert (PW : forall p, p <> Ws -> part_written p (part_src p)).
  { intros [t a|t|t a|w|] N; try congruence; cbn [part_src].
    - exact (open_written t a t (show_attrs a) 0 (name_self t) (SW a)).
    - exact (close_written t t 0 (name_self t)).
    - exact (single_written t a t (show_attrs a) 1 (name_self t) (SW a) ltac:(discriminate)).
    - constructor. }
  intros d html. unfold written, spelled. generalize (tm_doc d). intro l. revert html. induction l as [|p l IH]; intros html F; [exact F|].
  destruct p; cbn [fits fits_any] in *; try (destruct F as (u & -> & F); eexists _, u; split; [apply PW; discriminate|split; [reflexivity|exact (IH u F)]]).
  destruct F as (w & u & Hw & -> & F). exists w, u. auto.
Qed.
Theorem spelled_results : forall d html html' (u : unknown) (strict : bool), shape_doc d = true -> spelled d html -> spelled d html' ->
  html2creole u strict html = html2creole u strict html' /\ html2textile u html = html2textile u html' /\
  html2markdown u html = html2markdown u html' /\ html2rest u html = html2rest u html'.
Proof.
  intros d html html' u strict C S S'. assert (E : parse_html html = parse_html html') by (rewrite (spelled_tree d html C S), (spelled_tree d html' C S'); reflexivity).
  unfold html2creole, html2textile, html2markdown, html2rest. rewrite E. repeat split; reflexivity.
Qed.
