(** * From creole to html and back *)
From Coq Require Import String List Arith NArith ZArith Bool Lia.
From Verif Require Import PyStr PyStrFacts Utils Res Entities HtmlTools HtmlToolsFacts HtmlBase Html2X HtmlEmitter EmitterFacts InlineParse DocParse.
From Verif Require Import Spec2 Spec4 Spec5 Spec10 Spec11 CleanDoc CleanEmit Spec12.
Import ListNotations.
Open Scope N_scope.

(** ** templates *)
Lemma fits_app : forall a b x y, fits a x -> fits b y -> fits (a ++ b) (x ++ y).
Proof.
  induction a as [|p a IH]; intros b x y A B; [cbn [fits] in A; subst x; exact B|].
  destruct p; cbn [app fits] in *; try (destruct A as (v & -> & A); eexists; split; [rewrite <- app_assoc; reflexivity|apply IH; assumption]).
  destruct A as (w & v & W & -> & A). exists w, (v ++ y). split; [exact W|]. split; [rewrite <- app_assoc; reflexivity|apply IH; assumption].
Qed.
Lemma fits_ws : forall a w x, forallb is_space w = true -> fits a x -> fits (Ws :: a) (w ++ x).
Proof. intros a w x W A. exists w, x. auto. Qed.
Lemma fits_ws0 : forall a x, fits a x -> fits (Ws :: a) x.
Proof. intros a x A. exact (fits_ws a [] x eq_refl A). Qed.
Lemma fits_more : forall a w x, forallb is_space w = true -> fits (Ws :: a) x -> fits (Ws :: a) (w ++ x).
Proof. intros a w x W (v & y & V & -> & A). rewrite app_assoc. apply fits_ws; [rewrite forallb_app, W; exact V|exact A]. Qed.
Lemma fits_part : forall p a x, p <> Ws -> fits a x -> fits (p :: a) (part_src p ++ x).
Proof. intros p a x NW A. destruct p; try congruence; cbn [fits]; exists x; auto. Qed.
Lemma fits_one : forall p, p <> Ws -> fits [p] (part_src p).
Proof. intros p NW. rewrite <- (app_nil_r (part_src p)). apply fits_part; [exact NW|reflexivity]. Qed.
Lemma fits_wsl : forall s a x, fits a x -> fits (ws_after s ++ a) x.
Proof. intros [] a x A; try exact A; apply fits_ws0; exact A. Qed.
Lemma tm_inls_app : forall a b s, tm_inls s (a ++ b) = tm_inls s a ++ tm_inls (last_side s a) b.
Proof. induction a as [|x a IH]; intros b s; [reflexivity|]. cbn [app tm_inls last_side]. rewrite IH, app_assoc. reflexivity. Qed.
Lemma last_side_app : forall a b s, last_side s (a ++ b) = last_side (last_side s a) b.
Proof. induction a as [|x a IH]; intros b s; [reflexivity|]. cbn [app last_side]. apply IH. Qed.

(** ** text *)
Definition special (c : N) : bool := (c =? 38) || (c =? 60) || (c =? 62).
Lemma refs_special : forall c t, special c = true -> exists n, refs (c :: t) = XRef (Named n) :: refs t /\ ref_ok (Named n) = true /\ meant (Named n) = Ok [c] /\ write (Named n) = esc_char c.
Proof.
  intros c t H. unfold special in H. cbn [refs]. destruct (N.eqb_spec c 38); [subst c; exists ($ "amp"); repeat split|]. destruct (N.eqb_spec c 60); [subst c; exists ($ "lt"); repeat split|].
  destruct (N.eqb_spec c 62); [subst c; exists ($ "gt"); repeat split|]. discriminate H.
Qed.
Lemma refs_plain : forall c t, special c = false -> refs (c :: t) = match refs t with XText u :: r => XText (c :: u) :: r | r => XText [c] :: r end.
Proof.
  intros c t H. unfold special in H. cbn [refs]. destruct (c =? 38); [discriminate H|]. destruct (c =? 60); [discriminate H|]. destruct (c =? 62); [discriminate H|]. reflexivity.
Qed.
Lemma esc_plain : forall c, special c = false -> esc_char c = [c].
Proof. intros c H. unfold special in H. unfold esc_char. destruct (c =? 38); [discriminate H|]. destruct (c =? 60); [discriminate H|]. destruct (c =? 62); [discriminate H|]. reflexivity. Qed.
Lemma refs_cre : forall b w, cre_inls b (refs w) = w.
Proof.
  intros b w. induction w as [|c t IH]; [reflexivity|]. destruct (special c) eqn:E.
  - destruct (refs_special c t E) as (n & -> & _ & M & _). unfold cre_inls in *. cbn [flat_map cre_inl]. rewrite M, IH. reflexivity.
  - rewrite (refs_plain c t E). unfold cre_inls in *. destruct (refs t) as [|[u|e|f bd|h bd|x y z|] r]; cbn [flat_map cre_inl app] in *; rewrite <- IH; reflexivity.
Qed.
Lemma refs_src : forall w s, fits (tm_inls s (refs w)) (escape w).
Proof.
  intros w s. assert (E : flat_map part_src (tm_inls s (refs w)) = escape w); [|rewrite <- E; apply fits_some].
  rewrite escape_esc. revert s. induction w as [|c t IH]; intro s; [reflexivity|]. unfold esc in *. cbn [flat_map]. destruct (special c) eqn:E.
  - destruct (refs_special c t E) as (n & -> & _ & _ & W). cbn [tm_inls tm_inl app flat_map part_src side_of]. rewrite IH, W. reflexivity.
  - rewrite (refs_plain c t E), (esc_plain c E). specialize (IH s). destruct (refs t) as [|[u|e|f bd|h bd|x y z|] r]; cbn [tm_inls tm_inl app flat_map part_src side_of] in *; rewrite <- IH; destruct s; reflexivity.
Qed.
Lemma refs_side : forall w s, w <> [] -> last_side s (refs w) = More.
Proof.
  intros w s NE. assert (F : Forall (fun x => side_of x = More) (refs w)).
  { clear NE. induction w as [|c t IH]; [constructor|]. destruct (special c) eqn:E; [destruct (refs_special c t E) as (n & -> & _); constructor; [reflexivity|exact IH]|].
    rewrite (refs_plain c t E). destruct (refs t) as [|[u|e|f bd|h bd|x y z|] r]; try (constructor; [reflexivity|exact IH]). inversion IH. constructor; [reflexivity|assumption]. }
  assert (NN : refs w <> []).
  { destruct w as [|c t]; [congruence|]. destruct (special c) eqn:E; [destruct (refs_special c t E) as (n & -> & _); discriminate|]. rewrite (refs_plain c t E). destruct (refs t) as [|[] r]; discriminate. }
  revert s NN. induction F as [|x l Hx Hl IH]; intros s NN; [congruence|]. cbn [last_side]. rewrite Hx. destruct l as [|y l]; [reflexivity|]. apply IH. discriminate.
Qed.
Lemma refs_next : forall w X, w <> [] -> next_side (refs w ++ X) = More.
Proof.
  intros w X NE. destruct w as [|c t]; [congruence|]. destruct (special c) eqn:E; [destruct (refs_special c t E) as (n & -> & _); reflexivity|].
  rewrite (refs_plain c t E). destruct (refs t) as [|[] r]; reflexivity.
Qed.
(** the first run of plain characters *)
Lemma refs_run : forall u rest, u <> [] -> forallb (fun c => negb (special c)) u = true -> match rest with [] => True | c :: _ => special c = true end -> refs (u ++ rest) = XText u :: refs rest.
Proof.
  intros u rest NE H R. induction u as [|c u IH]; [congruence|]. cbn [forallb] in H. apply andb_true_iff in H as [H1 H2]. apply negb_true_iff in H1. cbn [app]. rewrite (refs_plain c _ H1).
  destruct u as [|d u].
  - cbn [app]. destruct rest as [|e rest]; [reflexivity|]. destruct (refs_special e rest R) as (n & -> & _). reflexivity.
  - rewrite IH; [reflexivity|discriminate|exact H2].
Qed.
Lemma special_space : forall c, special c = true -> is_space c = false.
Proof. intros c H. unfold special in H. destruct (N.eqb_spec c 38); [subst; reflexivity|]. destruct (N.eqb_spec c 60); [subst; reflexivity|]. destruct (N.eqb_spec c 62); [subst; reflexivity|]. discriminate H. Qed.
Lemma take_while_app_stop : forall (p : N -> bool) u rest, match rest with [] => True | c :: _ => p c = false end -> take_while p (u ++ rest) = take_while p u.
Proof.
  intros p u rest H. induction u as [|c u IH]; [destruct rest as [|d rest]; [reflexivity|cbn [app take_while]; rewrite H; reflexivity]|]. cbn [app take_while]. rewrite IH. reflexivity.
Qed.
Lemma trail_cons : forall c t, is_space c = false -> trail (c :: t) = trail t.
Proof. intros c t H. unfold trail. cbn [rev]. rewrite take_while_app_stop by exact H. reflexivity. Qed.
Lemma trail_app : forall u c t, is_space c = false -> trail (u ++ c :: t) = trail t.
Proof. intros u c t H. unfold trail. rewrite rev_app_distr. cbn [rev]. rewrite <- app_assoc. rewrite take_while_app_stop by exact H. reflexivity. Qed.
Lemma refs_clean : forall n w s X, (List.length w <= n)%nat -> w <> [] -> forallb (fun c => negb (c =? 10)) w = true -> side_ok s (lead w) = true -> side_ok (next_side X) (trail w) = true ->
  next_text X = false -> clean_inls More X = true -> clean_inls s (refs w ++ X) = true.
Proof.
  induction n as [|n IH]; intros w s X L NE N10 S1 S2 NT CX; [destruct w; [congruence|cbn in L; lia]|].
  destruct w as [|c t]; [congruence|]. destruct (special c) eqn:E.
  - destruct (refs_special c t E) as (m & -> & R & _ & _). cbn [app clean_inls clean_inl side_of]. rewrite R. cbn [andb]. destruct t as [|d t]; [exact CX|].
    apply IH; try assumption; [cbn in *; lia|discriminate| |reflexivity|].
    + cbn [forallb] in *. apply andb_true_iff in N10 as [_ N10]. exact N10.
    + rewrite trail_cons in S2 by (apply special_space; exact E). exact S2.
  - destruct (drop_while_split (fun x => negb (special x)) (c :: t)) as (u & EQ & U).
    assert (NU : u <> []). { intros ->. cbn [app] in EQ. cbn [drop_while] in EQ. rewrite E in EQ. cbn [negb] in EQ. apply (f_equal (@List.length N)) in EQ. cbn [List.length] in EQ.
      pose proof (drop_while_split (fun x => negb (special x)) t) as (v & E2 & _). apply (f_equal (@List.length N)) in E2. rewrite app_length in E2. lia. }
    set (rest := drop_while (fun x => negb (special x)) (c :: t)) in *.
    assert (RS : match rest with [] => True | d :: _ => special d = true end).
    { destruct rest as [|d r] eqn:ER; [exact I|]. unfold rest in ER. apply drop_while_head in ER. apply negb_false_iff in ER. exact ER. }
    rewrite EQ in *. rewrite (refs_run u rest NU U RS). cbn [app clean_inls clean_inl side_of].
    assert (LD : lead (u ++ rest) = lead u). { unfold lead. apply take_while_app_stop. destruct rest as [|d r]; [exact I|apply special_space; exact RS]. }
    rewrite LD in S1. rewrite forallb_app in N10. apply andb_true_iff in N10 as [N1 N2].
    assert (FU : forallb (fun c0 => negb ((c0 =? 60) || (c0 =? 38) || (c0 =? 10))) u = true).
    { rewrite forallb_forall in *. intros x Hx. specialize (U x Hx). specialize (N1 x Hx). unfold special in U. destruct (x =? 38), (x =? 60), (x =? 10); try discriminate; reflexivity. }
    rewrite FU, S1. assert (NU2 : is_nil u = false) by (destruct u; [congruence|reflexivity]). rewrite NU2. cbn [negb andb].
    destruct rest as [|d r].
    + cbn [refs app]. rewrite app_nil_r in S2. rewrite S2, NT. exact CX.
    + assert (NX : next_side (refs (d :: r) ++ X) = More) by (apply refs_next; discriminate). rewrite NX. cbn [side_ok andb].
      assert (NX2 : next_text (refs (d :: r) ++ X) = false) by (destruct (refs_special d r RS) as (m & -> & _); reflexivity). rewrite NX2. cbn [negb andb].
      apply IH; try assumption; [rewrite app_length in L; destruct u; [congruence|cbn in *; lia]|discriminate|reflexivity|].
      rewrite trail_app in S2 by (apply special_space; exact RS). rewrite trail_cons by (apply special_space; exact RS). exact S2.
Qed.

(** ** inline *)
Lemma neat_face : forall brk s f body r, neat_inl brk s (IFace f body) r = neat_inls brk Inner body.
Proof. intros. cbn [neat_inl]. generalize Inner. induction body as [|x l IH]; intro s0; [reflexivity|]. cbn [neat_inls]. rewrite IH. reflexivity. Qed.
Lemma ok_face : forall b f body t, inl_ok b (IFace f body) t = true -> inls_ok [] body = true.
Proof.
  intros b f body t H. cbn [inl_ok] in H. apply andb_true_iff in H as [_ H]. rewrite <- H. symmetry. generalize (@nil N). clear. induction body as [|x l IH]; intro b; [reflexivity|].
  cbn [inls_ok]. rewrite IH. reflexivity.
Qed.
Lemma neat_rich : forall brk s target body r, neat_inl brk s (IRich target body) r = true ->
  no_char [34] target = true /\ trimmed target = true /\ str_eqb (flat_map wr_inl body) target = false /\ neat_inls brk Inner body = true.
Proof.
  intros brk s target body r H. cbn [neat_inl] in H. rewrite !andb_true_iff, negb_true_iff in H. destruct H as [[[H1 H2] H3] H4]. repeat split; try assumption.
  rewrite <- H4. clear. generalize Inner. induction body as [|x l IH]; intro s0; [reflexivity|]. cbn [neat_inls]. rewrite IH. reflexivity.
Qed.
Lemma literals_no10 : forall w b t, literals b w t = true -> forallb (fun c => negb (c =? 10)) w = true.
Proof.
  induction w as [|c w IH]; intros b t H; [reflexivity|]. cbn [literals] in H. apply andb_true_iff in H as [H1 H2]. cbn [forallb]. rewrite (IH _ _ H2), andb_true_r.
  unfold literal in H1. apply andb_true_iff in H1 as [_ H1]. exact H1.
Qed.
Lemma no10_one : forall cs w, existsb (N.eqb 10) cs = true -> no_char cs w = true -> forallb (fun c => negb (c =? 10)) w = true.
Proof.
  intros cs w H N. unfold no_char in N. rewrite forallb_forall in *. intros c I. specialize (N c I). destruct (N.eqb_spec c 10); [|reflexivity]. subst c. rewrite H in N. discriminate N.
Qed.
Lemma trimmed_ends : forall w, trimmed w = true -> w <> [] /\ lead w = [] /\ trail w = [] /\ solid w = true.
Proof.
  intros w H. unfold trimmed, last_is, head_is in H. apply andb_true_iff in H as [H H3]. apply andb_true_iff in H as [H1 H2]. apply negb_true_iff in H1, H2.
  destruct w as [|c w]; [discriminate H3|]. split; [discriminate|]. unfold lead, trail, solid. destruct (rev (c :: w)) as [|d v] eqn:E; [apply (f_equal (@List.length N)) in E; rewrite rev_length in E; discriminate E|].
  cbn [take_while]. rewrite H1, H2. repeat split.
Qed.
Lemma data_src : forall t, startswith ($ "data:") t || str_eqb t ($ "data") = false -> str_eqb (take_while (fun c => negb (c =? 58)) t) ($ "data") = false.
Proof.
  intros t H. apply orb_false_iff in H as [H1 H2]. apply str_eqb_neq. intro E. destruct (drop_while_split (fun c => negb (c =? 58)) t) as (a & _ & _).
  assert (S : t = take_while (fun c => negb (c =? 58)) t ++ drop_while (fun c => negb (c =? 58)) t).
  { clear. induction t as [|c t IH]; [reflexivity|]. cbn [take_while drop_while]. destruct (negb (c =? 58)); [cbn [app]; rewrite <- IH; reflexivity|reflexivity]. }
  rewrite E in S. destruct (drop_while (fun c => negb (c =? 58)) t) as [|d r] eqn:D.
  - rewrite app_nil_r in S. rewrite S in H2. discriminate H2.
  - apply drop_while_head in D. apply negb_false_iff, N.eqb_eq in D. subst d. rewrite S in H1. discriminate H1.
Qed.
Definition texty (i : inl) : bool := match i with IText _ => true | _ => false end.
(** what is known of an element: of a text inside a link less than of other texts *)
Definition okay (i : inl) : Prop := match i with IText w => w <> [] /\ forallb (fun c => negb (c =? 10)) w = true | _ => exists b t, inl_ok b i t = true end.
Lemma okay_one : forall b i t, inl_ok b i t = true -> okay i.
Proof.
  intros b i t H. destruct i as [w| | | | | | | |]; cbn [okay]; eauto. cbn [inl_ok] in H. apply andb_true_iff in H as [H1 H2]. split; [destruct w; discriminate|exact (literals_no10 _ _ _ H2)].
Qed.
Lemma okay_all : forall l b, inls_ok b l = true -> Forall okay l.
Proof. induction l as [|x l IH]; intros b H; [constructor|]. cbn [inls_ok] in H. apply andb_true_iff in H as [H1 H2]. constructor; [exact (okay_one _ _ _ H1)|exact (IH _ H2)]. Qed.
Lemma okay_rich : forall b target body t, inl_ok b (IRich target body) t = true -> Forall okay body.
Proof.
  intros b target body t H. apply rich_facts in H as (_ & _ & _ & _ & N & _ & R). apply (no10_one [10; 93] _ eq_refl) in N. revert N R. clear. induction body as [|x l IH]; intros N R; [constructor|].
  cbn [flat_map rich_ok] in *. rewrite forallb_app in N. apply andb_true_iff in N as [N1 N2]. apply andb_true_iff in R as [R1 R2]. constructor; [|exact (IH N2 R2)].
  destruct x as [w| | | | | | | |]; try discriminate R1; cbn [okay]; try (exists [], []; exact R1).
  apply andb_true_iff in R1 as [R1 _]. split; [destruct w; discriminate|exact N1].
Qed.
Definition alone (i : inl) : Prop := forall brk s r, okay i -> neat_inl brk s i r = true -> texty i = false ->
  exists y, to_x i = [y] /\ side_of y = beside i /\ x_text y = false /\ forall s' X, clean_inl s' y X = true.
Lemma next_to : forall l brk s, Forall alone l -> Forall okay l -> neat_inls brk s l = true -> next_side (to_xs l) = next_is l /\ (is_text l = false -> next_text (to_xs l) = false).
Proof.
  intros l brk s A O N. destruct l as [|x l]; [split; reflexivity|]. cbn [neat_inls] in *. apply andb_true_iff in N as [N _].
  inversion A as [|? ? Ax _]; subst. inversion O as [|? ? Ox _]; subst. unfold to_xs. cbn [flat_map]. destruct (texty x) eqn:T.
  - destruct x as [w| | | | | | | |]; try discriminate T. destruct Ox as [Ox _]. cbn [to_x next_is beside is_text]. split; [apply refs_next; exact Ox|discriminate].
  - destruct (Ax _ _ _ Ox N T) as (y & -> & S & XT & _). cbn [app next_side next_is]. split; [exact S|]. intros _. destruct y; try reflexivity. discriminate XT.
Qed.
Lemma inls_clean_of : forall l brk s, Forall alone l -> Forall okay l -> neat_inls brk s l = true -> clean_inls s (to_xs l) = true.
Proof.
  induction l as [|x l IH]; intros brk s A O N; [reflexivity|]. cbn [neat_inls] in *. apply andb_true_iff in N as [N1 N2].
  inversion A as [|? ? Ax Al]; subst. inversion O as [|? ? O1 O2]; subst. specialize (IH _ _ Al O2 N2). destruct (next_to l brk _ Al O2 N2) as [NS NT]. unfold to_xs in *. cbn [flat_map]. destruct (texty x) eqn:T.
  - destruct x as [w| | | | | | | |]; try discriminate T. destruct O1 as [O0 O1]. cbn [neat_inl] in N1. apply andb_true_iff in N1 as [N1 N3]. apply andb_true_iff in N1 as [N0 N1].
    apply negb_true_iff in N3. cbn [to_x]. eapply refs_clean; [apply Nat.le_refl|exact O0|exact O1|exact N0|rewrite NS; exact N1|exact (NT N3)|exact IH].
  - destruct (Ax _ _ _ O1 N1 T) as (y & -> & S & XT & C). cbn [app clean_inls]. rewrite C, S. exact IH.
Qed.
Lemma refs_inner : forall w, trimmed w = true -> forallb (fun c => negb (c =? 10)) w = true -> clean_inls Inner (refs w) = true.
Proof.
  intros w T N. apply trimmed_ends in T as (NE & L & R & _). rewrite <- (app_nil_r (refs w)). eapply refs_clean; [apply Nat.le_refl|exact NE|exact N|rewrite L; reflexivity|rewrite R; reflexivity|reflexivity|reflexivity].
Qed.
Lemma inl_alone : forall i, alone i.
Proof.
  induction i as [w|d|f body IH|x|target text|target title size|v| |target body IH] using inl_ind'; intros brk s r O N T; try discriminate T; try discriminate N; destruct O as (b & t & O).
  - exists (XFace (Spec4.face_tag f) [] (to_xs body)). split; [reflexivity|]. split; [reflexivity|]. split; [reflexivity|]. intros s' X. rewrite clean_face. rewrite neat_face in N. apply ok_face in O.
    pose proof (inls_clean_of body brk _ IH (okay_all _ _ O) N) as E. rewrite E. destruct f; reflexivity.
  - exists (XLink target (refs (or_else text target))). split; [reflexivity|]. split; [reflexivity|]. split; [reflexivity|]. intros s' X. rewrite clean_link. cbn [inl_ok neat_inl] in *.
    apply andb_true_iff in O as [O O4]. apply andb_true_iff in O as [O O3]. apply andb_true_iff in O as [O1 O2]. apply andb_true_iff in N as [N N3]. apply andb_true_iff in N as [N1 N2].
    pose proof (no10_one [10; 124; 93] _ eq_refl O2) as NT. unfold one_line. rewrite NT. cbn [andb]. apply refs_inner.
    + destruct text as [x|]; [|exact N2]. cbn [opt_ok or_else] in *. do 3 (apply andb_true_iff in O4 as [O4 _]). exact O4.
    + destruct text as [x|]; [|exact NT]. cbn [opt_ok or_else] in *. apply andb_true_iff in O4 as [O4 _]. apply andb_true_iff in O4 as [O4 _]. apply andb_true_iff in O4 as [_ O4]. apply (no10_one [10; 93] _ eq_refl O4).
  - destruct title as [title|]; [|discriminate N]. destruct size; [discriminate N|]. eexists. split; [reflexivity|]. split; [reflexivity|]. split; [reflexivity|]. intros s' X. cbn [inl_ok neat_inl opt_ok or_else] in *.
    apply andb_true_iff in N as [_ N]. apply negb_true_iff in N. apply andb_true_iff in O as [O _]. apply andb_true_iff in O as [O O4]. apply andb_true_iff in O as [O _]. apply andb_true_iff in O as [_ O]. apply andb_true_iff in O4 as [_ O4].
    cbn [clean_inl]. unfold one_line. rewrite (no10_one [10; 124; 125] _ eq_refl O), (no10_one [10; 125] _ eq_refl O4), (data_src _ N). reflexivity.
  - eexists. repeat split.
  - exists (XLink target (to_xs body)). split; [reflexivity|]. split; [reflexivity|]. split; [reflexivity|]. intros s' X. rewrite clean_link. apply neat_rich in N as (_ & _ & _ & N).
    rewrite (inls_clean_of body brk _ IH (okay_rich _ _ _ _ O) N), andb_true_r. apply rich_facts in O as (_ & O & _). exact (no10_one [10; 124; 93] _ eq_refl O).
Qed.
Lemma inls_clean : forall l brk s b, inls_ok b l = true -> neat_inls brk s l = true -> clean_inls s (to_xs l) = true.
Proof. intros l brk s b O N. apply (inls_clean_of l brk); [|exact (okay_all _ _ O)|exact N]. apply Forall_forall. intros; apply inl_alone. Qed.

(** the typefaces are ones of the table *)
Lemma refs_tags : forall ts w, forallb (only_tags ts) (refs w) = true.
Proof.
  intros ts w. induction w as [|c t IH]; [reflexivity|]. destruct (special c) eqn:E; [destruct (refs_special c t E) as (n & -> & _); exact IH|].
  rewrite (refs_plain c t E). destruct (refs t) as [|[u|e|f bd|h bd|x y z|] r]; exact IH.
Qed.
Lemma to_x_tags : forall i, forallb (only_tags (map fst xfaces)) (to_x i) = true.
Proof.
  induction i as [w|d|f body IH|x|target text|target title size|v| |target body IH] using inl_ind'; try reflexivity; try apply refs_tags.
  - assert (B : forallb (only_tags (map fst xfaces)) (flat_map to_x body) = true) by (induction IH as [|x l Hx Hl IHl]; [reflexivity|]; cbn [flat_map]; rewrite forallb_app, Hx; exact IHl).
    cbn [to_x forallb only_tags]. rewrite B. destruct f; reflexivity.
  - cbn [to_x forallb only_tags]. rewrite refs_tags. reflexivity.
  - assert (B : forallb (only_tags (map fst xfaces)) (flat_map to_x body) = true) by (induction IH as [|x l Hx Hl IHl]; [reflexivity|]; cbn [flat_map]; rewrite forallb_app, Hx; exact IHl).
    cbn [to_x forallb only_tags]. rewrite B. reflexivity.
Qed.
Lemma to_xs_tags : forall l, forallb (only_tags (map fst xfaces)) (to_xs l) = true.
Proof. induction l as [|x l IH]; [reflexivity|]. unfold to_xs in *. cbn [flat_map]. rewrite forallb_app, to_x_tags. exact IH. Qed.
Lemma lines_tags : forall ls, forallb (only_tags (map fst xfaces)) (to_xlines ls) = true.
Proof.
  induction ls as [|x ls IH]; [reflexivity|]. destruct ls as [|y ls]; [apply to_xs_tags|]. change (to_xlines (x :: y :: ls)) with (to_xs x ++ XBreak :: to_xlines (y :: ls)).
  rewrite forallb_app, to_xs_tags. exact IH.
Qed.

(** what is read back *)
Definition reads (i : inl) : Prop := forall brk bb s r, okay i -> neat_inl brk s i r = true -> (brk = true -> bb = [92; 92]) -> cre_inls bb (to_x i) = wr_inl i.
Lemma to_xs_cre_of : forall l brk bb, Forall reads l -> (brk = true -> bb = [92; 92]) -> forall s, Forall okay l -> neat_inls brk s l = true -> cre_inls bb (to_xs l) = wr_inls l.
Proof.
  intros l brk bb H B. induction H as [|x l Hx Hl IH]; intros s O N; [reflexivity|]. cbn [neat_inls] in *. apply andb_true_iff in N as [N1 N2]. inversion O as [|? ? O1 O2]; subst.
  specialize (IH _ O2 N2). unfold to_xs, cre_inls, wr_inls in *. cbn [flat_map]. rewrite flat_map_app, IH. f_equal. eapply Hx; eassumption.
Qed.
Lemma to_x_cre : forall i, reads i.
Proof.
  induction i as [w|d|f body IH|x|target text|target title size|v| |target body IH] using inl_ind'; intros brk bb s r O N B; try discriminate N; try destruct O as (b & t & O).
  - apply refs_cre.
  - rewrite neat_face in N. apply ok_face in O. pose proof (to_xs_cre_of body brk bb IH B _ (okay_all _ _ O) N) as E. unfold cre_inls, to_xs, wr_inls in *. cbn [to_x flat_map cre_inl wr_inl]. rewrite E, app_nil_r. destruct f; reflexivity.
  - cbn [neat_inl] in N. apply andb_true_iff in N as [_ N]. pose proof (refs_cre bb (or_else text target)) as E. unfold cre_inls in *. cbn [to_x flat_map cre_inl wr_inl]. rewrite E, app_nil_r.
    destruct text as [x|]; cbn [or_else opt_ok with_bar] in *.
    + apply negb_true_iff in N. rewrite N. rewrite <- !app_assoc. reflexivity.
    + rewrite str_eqb_refl. reflexivity.
  - destruct title as [title|]; [|discriminate N]. destruct size; [discriminate N|]. cbn [to_x or_else]. unfold cre_inls. cbn [flat_map cre_inl wr_inl image_text with_bar]. unfold image_title. rewrite Nat.ltb_irrefl.
    rewrite app_nil_r, <- !app_assoc. destruct title; [|reflexivity]. cbn [inl_ok opt_ok] in O. apply andb_true_iff in O as [O _]. apply andb_true_iff in O as [_ O]. discriminate O.
  - cbn [neat_inl] in N. unfold cre_inls. cbn [to_x flat_map cre_inl wr_inl]. rewrite (B N). reflexivity.
  - apply neat_rich in N as (_ & _ & D & N). pose proof (to_xs_cre_of body brk bb IH B _ (okay_rich _ _ _ _ O) N) as E. unfold cre_inls, to_xs, wr_inls in *. cbn [to_x flat_map cre_inl wr_inl]. rewrite E, app_nil_r, D. reflexivity.
Qed.
Lemma to_xs_cre : forall l brk bb s b, (brk = true -> bb = [92; 92]) -> inls_ok b l = true -> neat_inls brk s l = true -> cre_inls bb (to_xs l) = wr_inls l.
Proof. intros l brk bb s b B O N. apply (to_xs_cre_of l brk bb) with (s := s); [|exact B|exact (okay_all _ _ O)|exact N]. apply Forall_forall. intros; apply to_x_cre. Qed.

(** what is written *)
Lemma no_quote : forall t, no_char [34] t = true -> flat_map attr_entity t = attr_text t.
Proof.
  intros t H. unfold attr_text. rewrite escape_esc, replace_single. induction t as [|c t IH]; [reflexivity|]. unfold no_char in *. cbn [forallb] in H. apply andb_true_iff in H as [H1 H2].
  unfold esc in *. cbn [flat_map]. rewrite (IH H2), flat_map_app. f_equal. cbn [existsb] in H1. rewrite orb_false_r in H1. unfold attr_entity, esc_char.
  destruct (N.eqb_spec c 38); [reflexivity|]. destruct (N.eqb_spec c 60); [reflexivity|]. destruct (N.eqb_spec c 62); [reflexivity|]. cbn [flat_map]. unfold sub1. rewrite (N.eqb_sym 34 c). destruct (N.eqb_spec c 34); [discriminate H1|reflexivity].
Qed.
Lemma elem_eq : forall t c, elem t c = part_src (Open t []) ++ c ++ part_src (Close t).
Proof. intros t c. unfold elem. cbn [part_src show_attrs flat_map app]. rewrite <- !app_assoc. reflexivity. Qed.
Definition shows (strict : bool) (i : inl) : Prop := forall brk s w s' r, forallb is_space w = true -> okay i -> neat_inl brk s' i r = true ->
  fits (tm_inls s (to_x i)) (html_inl strict ($ "<br />" ++ w) i).
Lemma to_xs_fits_of : forall strict l brk w, Forall (shows strict) l -> forallb is_space w = true -> forall s s', Forall okay l -> neat_inls brk s' l = true ->
  fits (tm_inls s (to_xs l)) (html_inls strict ($ "<br />" ++ w) l).
Proof.
  intros strict l brk w H W. induction H as [|x l Hx Hl IH]; intros s s' O N; [reflexivity|]. cbn [neat_inls] in *. apply andb_true_iff in N as [N1 N2]. inversion O as [|? ? O1 O2]; subst.
  unfold to_xs, html_inls in *. cbn [flat_map]. rewrite tm_inls_app. apply fits_app; [eapply Hx; eassumption|eapply IH; eassumption].
Qed.
Lemma to_x_fits : forall strict i, shows strict i.
Proof.
  intro strict. induction i as [w|d|f body IH|x|target text|target title size|v| |target body IH] using inl_ind'; intros brk s w0 s' r W O N; try discriminate N; try destruct O as (b & t & O).
  - apply refs_src.
  - rewrite neat_face in N. apply ok_face in O. pose proof (to_xs_fits_of strict body brk [10] IH eq_refl Inner _ (okay_all _ _ O) N) as E.
    cbn [to_x tm_inls html_inl]. rewrite tm_face, app_nil_r, elem_eq.
    apply fits_part; [discriminate|]. apply fits_app; [exact E|apply fits_one; discriminate].
  - cbn [neat_inl] in N. apply andb_true_iff in N as [N _]. apply andb_true_iff in N as [N _]. cbn [to_x tm_inls html_inl]. rewrite tm_link, app_nil_r.
    pose proof (refs_src (or_else text target) Inner) as E.
    replace ($ "<a href=""" ++ attr_text target ++ $ """>" ++ escape (or_else text target) ++ $ "</a>") with (part_src (Open ($ "a") [($ "href", VStr target)]) ++ escape (or_else text target) ++ part_src (Close ($ "a"))).
    + apply fits_part; [discriminate|]. apply fits_app; [exact E|apply fits_one; discriminate].
    + cbn [part_src show_attrs flat_map value_of fst snd]. rewrite (no_quote _ N), app_nil_r. cbn [L app]. rewrite <- !app_assoc. reflexivity.
  - destruct title as [title|]; [|discriminate N]. destruct size; [discriminate N|]. cbn [neat_inl] in N. apply andb_true_iff in N as [N _]. unfold no_char in N. rewrite forallb_app in N. apply andb_true_iff in N as [N1 N2].
    cbn [to_x tm_inls tm_inl html_inl or_else html_image app]. unfold img.
    replace ($ "<img src=""" ++ attr_text target ++ $ """ title=""" ++ attr_text title ++ $ """ alt=""" ++ attr_text title ++ $ """" ++ [] ++ $ " />") with (part_src (Single ($ "img") (img_attrs target title title))).
    + apply fits_one. discriminate.
    + cbn [part_src show_attrs img_attrs flat_map value_of fst snd]. rewrite (no_quote _ N1), (no_quote _ N2), app_nil_r. cbn [L app]. rewrite <- !app_assoc. cbn [app]. rewrite <- !app_assoc. cbn [app]. rewrite <- !app_assoc. reflexivity.
  - cbn [to_x tm_inls tm_inl html_inl]. rewrite app_nil_r. apply fits_wsl. apply (fits_part (Single ($ "br") [])); [discriminate|]. rewrite <- (app_nil_r w0). apply fits_ws; [exact W|reflexivity].
  - apply neat_rich in N as (Q & _ & _ & N). pose proof (to_xs_fits_of strict body brk [10] IH eq_refl Inner _ (okay_rich _ _ _ _ O) N) as E. cbn [to_x tm_inls html_inl]. rewrite tm_link, app_nil_r.
    replace ($ "<a href=""" ++ attr_text target ++ $ """>" ++ flat_map (html_inl strict br) body ++ $ "</a>") with (part_src (Open ($ "a") [($ "href", VStr target)]) ++ html_inls strict ($ "<br />" ++ [10]) body ++ part_src (Close ($ "a"))).
    + apply fits_part; [discriminate|]. apply fits_app; [exact E|apply fits_one; discriminate].
    + change (html_inls strict ($ "<br />" ++ [10]) body) with (flat_map (html_inl strict br) body). generalize (flat_map (html_inl strict br) body). intro X. cbn [part_src show_attrs flat_map value_of fst snd]. rewrite (no_quote _ Q), app_nil_r. cbn [L app]. rewrite <- !app_assoc. reflexivity.
Qed.
Lemma to_xs_fits : forall strict l brk w s s' b, forallb is_space w = true -> inls_ok b l = true -> neat_inls brk s' l = true ->
  fits (tm_inls s (to_xs l)) (html_inls strict ($ "<br />" ++ w) l).
Proof. intros strict l brk w s s' b W O N. apply (to_xs_fits_of strict l brk w) with (s' := s'); [|exact W|exact (okay_all _ _ O)|exact N]. apply Forall_forall. intros; apply to_x_fits. Qed.

(** ** lines *)
Lemma clean_inl_next : forall s x r r', next_side r = next_side r' -> next_text r = next_text r' -> clean_inl s x r = clean_inl s x r'.
Proof. intros s x r r' H1 H2. destruct x; try reflexivity. cbn [clean_inl]. rewrite H1, H2. reflexivity. Qed.
Lemma clean_app : forall a X s, clean_inls s a = true -> next_side X = Edge -> next_text X = false -> clean_inls (last_side s a) X = true -> clean_inls s (a ++ X) = true.
Proof.
  induction a as [|x a IH]; intros X s C E T CX; [exact CX|]. cbn [app clean_inls last_side] in *. apply andb_true_iff in C as [C1 C2]. rewrite (IH X _ C2 E T CX), andb_true_r.
  destruct a as [|y a]; [|rewrite <- C1; apply clean_inl_next; reflexivity]. cbn [app]. rewrite <- C1. apply clean_inl_next; [rewrite E; reflexivity|rewrite T; reflexivity].
Qed.
Definition line_fine (l : list inl) : Prop := neat_line l = true /\ line_ok l = true.
Lemma line_parts : forall l, line_fine l -> inls_ok [] l = true /\ neat_inls false Edge l = true /\ solid (wr_inls l) = true /\ ends_in_backslash l = false.
Proof.
  intros l [N O]. unfold neat_line, line_ok in *. apply andb_true_iff in N as [N N3]. apply andb_true_iff in N as [N1 N2]. apply andb_true_iff in O as [_ O]. apply negb_true_iff in N3.
  apply trimmed_ends in N2 as (_ & _ & _ & N2). auto.
Qed.
Lemma lines_clean : forall ls, Forall line_fine ls -> clean_inls Edge (to_xlines ls) = true.
Proof.
  induction 1 as [|x ls Hx Hl IH]; [reflexivity|]. destruct (line_parts x Hx) as (O & N & _). pose proof (inls_clean x false Edge [] O N) as C. destruct ls as [|y ls]; [exact C|].
  change (to_xlines (x :: y :: ls)) with (to_xs x ++ XBreak :: to_xlines (y :: ls)). apply clean_app; [exact C|reflexivity|reflexivity|]. cbn [clean_inls clean_inl side_of andb]. exact IH.
Qed.
Lemma lines_cre : forall ls, Forall line_fine ls -> cre_inls [10] (to_xlines ls) = lines_text (map wr_inls ls).
Proof.
  induction 1 as [|x ls Hx Hl IH]; [reflexivity|]. destruct (line_parts x Hx) as (O & N & _). pose proof (to_xs_cre x false [10] Edge [] ltac:(discriminate) O N) as C. destruct ls as [|y ls]; [exact C|].
  change (to_xlines (x :: y :: ls)) with (to_xs x ++ XBreak :: to_xlines (y :: ls)). change (lines_text (map wr_inls (x :: y :: ls))) with (wr_inls x ++ [10] ++ lines_text (map wr_inls (y :: ls))).
  unfold cre_inls in *. rewrite flat_map_app, C. cbn [flat_map cre_inl]. rewrite IH. reflexivity.
Qed.
Lemma lines_fits : forall blog strict ls s, Forall line_fine ls -> blog || Nat.eqb (List.length ls) 1 = true -> fits (tm_inls s (to_xlines ls)) (html_lines blog strict ls).
Proof.
  intros blog strict ls s F. revert s. induction F as [|x ls Hx Hl IH]; intros s B; [reflexivity|]. destruct (line_parts x Hx) as (O & N & _ & EB).
  pose proof (fun s => to_xs_fits strict x false [10] s Edge [] eq_refl O N) as C. destruct ls as [|y ls]; [exact (C s)|].
  assert (BT : blog = true) by (destruct blog; [reflexivity|discriminate B]). subst blog.
  change (to_xlines (x :: y :: ls)) with (to_xs x ++ XBreak :: to_xlines (y :: ls)).
  change (html_lines true strict (x :: y :: ls)) with (html_inls strict br x ++ (if ends_in_backslash x then [] else br) ++ html_lines true strict (y :: ls)). rewrite EB, tm_inls_app. apply fits_app; [apply C|].
  cbn [tm_inls tm_inl side_of]. rewrite <- app_assoc. apply fits_wsl. cbn [app]. unfold br. rewrite <- app_assoc. apply (fits_part (Single ($ "br") [])); [discriminate|]. apply fits_ws; [reflexivity|]. apply IH. reflexivity.
Qed.

(** ** lists *)
Lemma litem_ind2 : forall P : litem -> Prop, (forall t o sub, Forall P sub -> P (LI t o sub)) -> forall i, P i.
Proof. intros P H. fix IH 1. intros [t o sub]. apply H. revert sub. fix IHl 1. intros [|x l]; [constructor|]. constructor; [apply IH|apply IHl]. Qed.
Lemma item_parts : forall t o sub, item_ok (LI t o sub) = true -> neat_item (LI t o sub) = true ->
  inls_ok [] t = true /\ neat_inls true Edge t = true /\ trimmed (wr_inls t) = true /\ (is_nil sub || ends_in_text t = true) /\ forallb item_ok sub = true /\ forallb neat_item sub = true.
Proof.
  intros t o sub O N. cbn [item_ok neat_item] in *. apply andb_true_iff in O as [O O2]. unfold item_text_ok in O. apply andb_true_iff in O as [O _]. apply andb_true_iff in O as [O O1]. apply andb_true_iff in O as [O0 _].
  apply andb_true_iff in N as [N N3]. apply andb_true_iff in N as [N1 N2]. auto 10.
Qed.
Lemma to_item_ok : forall i, item_ok i = true -> neat_item i = true -> xitem_ok (to_xitem i) = true.
Proof.
  induction i as [t o sub IH] using litem_ind2. intros O N. destruct (item_parts t o sub O N) as (O1 & N1 & T & _ & O2 & N2). cbn [to_xitem xitem_ok]. apply andb_true_iff. split.
  - unfold text_ok. rewrite (inls_clean t true Edge [] O1 N1), to_xs_tags, (to_xs_cre t true [92; 92] Edge [] (fun _ => eq_refl) O1 N1). apply trimmed_ends in T as (_ & _ & _ & T). exact T.
  - clear -IH O2 N2. induction IH as [|x l Hx Hl IHl]; [reflexivity|]. cbn [map forallb] in *. apply andb_true_iff in O2 as [O2 O3]. apply andb_true_iff in N2 as [N2 N3]. rewrite (Hx O2 N2). apply IHl; assumption.
Qed.
Lemma to_item_cre : forall i bl, item_ok i = true -> neat_item i = true -> cre_item bl (to_xitem i) = wr_item bl i.
Proof.
  induction i as [t o sub IH] using litem_ind2. intros bl O N. destruct (item_parts t o sub O N) as (O1 & N1 & T & _ & O2 & N2). cbn [to_xitem cre_item wr_item].
  rewrite (to_xs_cre t true [92; 92] Edge [] (fun _ => eq_refl) O1 N1). f_equal. change [if o then 35 else 42] with [list_mark o]. clear -IH O2 N2.
  induction IH as [|x l Hx Hl IHl]; [reflexivity|]. cbn [map forallb flat_map] in *. apply andb_true_iff in O2 as [O2 O3]. apply andb_true_iff in N2 as [N2 N3]. rewrite (Hx _ O2 N2), (IHl O3 N3). reflexivity.
Qed.
Lemma tabs_space : forall n, forallb is_space (tabs n) = true. Proof. induction n as [|n IH]; [reflexivity|]. cbn [tabs repeat forallb]. exact IH. Qed.
(** an item without the white space around it *)
Definition tm_core (i : xitem) : list part := match i with XI text o sub => tm_elem ($ "li") (tm_text text ++ match sub with [] => [] | _ => tm_elem (xlist_tag o) (flat_map tm_item sub) ++ [Ws] end) end.
Lemma tm_core_eq : forall i, tm_item i = tm_core i ++ [Ws]. Proof. intros [t o sub]. reflexivity. Qed.
Definition h_core (strict : bool) (level : nat) (i : litem) : str :=
  match i with LI t o sub => elem ($ "li") (html_inls strict (br ++ tabs (S level)) t ++ match sub with [] => [] | _ => [10] ++ html_list_with (html_item strict (S level)) (S level) o sub end) end.
Lemma h_core_eq : forall strict level i, html_item strict level i = [10] ++ tabs (S level) ++ h_core strict level i.
Proof. intros strict level [t o sub]. cbn [html_item h_core]. unfold elem. rewrite <- !app_assoc. reflexivity. Qed.
Lemma text_more : forall t brk s b, inls_ok b t = true -> neat_inls brk s t = true -> ends_in_text t = true -> last_side s (to_xs t) = More.
Proof.
  intros t brk s b O N E. unfold ends_in_text in E. destruct (rev t) as [|i r] eqn:ER; [discriminate E|]. destruct i; try discriminate E.
  assert (ET : t = rev r ++ [IText w]) by (rewrite <- (rev_involutive t), ER; reflexivity). subst t. unfold to_xs. rewrite flat_map_app, last_side_app. cbn [flat_map to_x]. rewrite app_nil_r. apply refs_side.
  clear -O. revert b O. induction (rev r) as [|x l IH]; intros b O; cbn [app inls_ok] in O; apply andb_true_iff in O as [O1 O2]; [|eapply IH; exact O2].
  cbn [inl_ok] in O1. apply andb_true_iff in O1 as [O1 _]. destruct w; discriminate.
Qed.
Lemma items_fits_of : forall strict level l w, Forall (fun i => forall level, item_ok i = true -> neat_item i = true -> fits (tm_core (to_xitem i)) (h_core strict level i)) l ->
  forallb item_ok l = true -> forallb neat_item l = true -> forallb is_space w = true -> fits (Ws :: flat_map tm_item (map to_xitem l)) (flat_map (html_item strict level) l ++ w).
Proof.
  intros strict level l w H. induction H as [|x l Hx Hl IH]; intros O N W.
  - cbn [map flat_map app]. rewrite <- (app_nil_r w). apply fits_ws; [exact W|reflexivity].
  - cbn [map flat_map forallb] in *. apply andb_true_iff in O as [O1 O2]. apply andb_true_iff in N as [N1 N2]. rewrite tm_core_eq, h_core_eq, <- !app_assoc. rewrite (app_assoc [10] (tabs (S level))).
    apply fits_ws; [rewrite forallb_app, tabs_space; reflexivity|]. apply fits_app; [apply Hx; assumption|]. apply IH; assumption.
Qed.
Lemma list_fits : forall strict level o l, Forall (fun i => forall level, item_ok i = true -> neat_item i = true -> fits (tm_core (to_xitem i)) (h_core strict level i)) l ->
  forallb item_ok l = true -> forallb neat_item l = true -> fits (Ws :: tm_elem (xlist_tag o) (flat_map tm_item (map to_xitem l))) (html_list_with (html_item strict level) level o l).
Proof.
  intros strict level o l H O N. unfold html_list_with. apply fits_ws; [apply tabs_space|]. unfold tm_elem.
  pose proof (items_fits_of strict level l ([10] ++ tabs level) H O N) as F. rewrite forallb_app, tabs_space in F. specialize (F eq_refl).
  replace ($ "<" ++ list_tag o ++ $ ">" ++ flat_map (html_item strict level) l ++ [10] ++ tabs level ++ $ "</" ++ list_tag o ++ $ ">")
    with (part_src (Open (xlist_tag o) []) ++ (flat_map (html_item strict level) l ++ [10] ++ tabs level) ++ part_src (Close (xlist_tag o))).
  - apply fits_part; [discriminate|]. rewrite app_comm_cons. apply fits_app; [exact F|apply fits_one; discriminate].
  - rewrite <- !app_assoc. destruct o; reflexivity.
Qed.
Lemma item_fits : forall strict i level, item_ok i = true -> neat_item i = true -> fits (tm_core (to_xitem i)) (h_core strict level i).
Proof.
  intro strict. induction i as [t o sub IH] using litem_ind2. intros level O N. destruct (item_parts t o sub O N) as (O1 & N1 & T & E & O2 & N2). cbn [to_xitem tm_core h_core]. rewrite elem_eq. unfold tm_elem at 1.
  apply fits_part; [discriminate|]. apply fits_ws0. apply fits_app; [|apply fits_one; discriminate]. unfold tm_text.
  assert (F : fits (tm_inls Edge (to_xs t)) (html_inls strict (br ++ tabs (S level)) t)).
  { unfold br. rewrite <- app_assoc. eapply to_xs_fits; [|exact O1|exact N1]. rewrite forallb_app, tabs_space. reflexivity. }
  destruct sub as [|x sub].
  - cbn [map]. rewrite !app_nil_r. rewrite <- (app_nil_r (html_inls _ _ _)). apply fits_app; [exact F|]. destruct (last_side Edge (to_xs t)); try reflexivity; apply fits_ws0; reflexivity.
  - cbn [is_nil orb] in E. rewrite (text_more t true Edge [] O1 N1 E). cbn [ws_after]. rewrite <- app_assoc. apply fits_app; [exact F|]. cbn [map app].
    apply (fits_more _ [10]); [reflexivity|]. pose proof (list_fits strict (S level) o (x :: sub) IH O2 N2) as LF.
    rewrite <- (app_nil_r (html_list_with _ _ _ _)). rewrite app_comm_cons. apply fits_app; [exact LF|apply fits_ws0; reflexivity].
Qed.
Lemma items_fits : forall strict o l, forallb item_ok l = true -> forallb neat_item l = true -> fits (tm_elem (xlist_tag o) (flat_map tm_item (map to_xitem l))) (html_list strict 0 o l).
Proof.
  intros strict o l O N. pose proof (list_fits strict 0 o l) as F. unfold html_list. destruct F as (w & v & W & E & F); [apply Forall_forall; intros; apply item_fits; assumption|exact O|exact N|].
  destruct w as [|c w]; [cbn [app] in E; rewrite E; exact F|]. unfold html_list_with in E. cbn [tabs repeat app] in E. injection E as <- _. cbn [forallb] in W. discriminate W.
Qed.

(** ** documents *)
Lemma block_fine : forall blog strict b, block_ok blog b = true -> neat_block blog b = true ->
  xblock_ok (to_xblock b) = true /\ cre_block (to_xblock b) = wr_block b /\ fits (tm_block (to_xblock b)) (html_block blog strict b).
Proof.
  intros blog strict b O N. destruct b as [ls|n sp t cl| |cs|o items|rows]; try discriminate N.
  - cbn [block_ok neat_block] in *. apply andb_true_iff in O as [O1 O2]. apply andb_true_iff in N as [N1 N2].
    assert (F : Forall line_fine ls) by (apply Forall_forall; intros x Hx; rewrite forallb_forall in N1, O1; split; auto).
    cbn [to_xblock xblock_ok cre_block wr_block tm_block html_block]. split; [|split].
    + unfold text_ok. rewrite (lines_clean ls F), lines_tags, (lines_cre ls F). cbn [andb].
      assert (LT : lines_text (map wr_inls ls) = join [10] (map wr_inls ls)) by (clear; induction (map wr_inls ls) as [|x l IH]; [reflexivity|]; destruct l as [|y l]; [reflexivity|]; cbn [lines_text join] in *; rewrite IH; reflexivity).
      rewrite LT. apply join_solid.
      * rewrite forallb_forall. intros x Hx. apply in_map_iff in Hx as (l & <- & Hl). rewrite Forall_forall in F. apply (line_parts l (F l Hl)).
      * destruct ls; [discriminate O2|discriminate].
    + apply lines_cre. exact F.
    + rewrite elem_eq. unfold tm_elem. apply fits_part; [discriminate|]. apply fits_ws0. apply fits_app; [|apply fits_one; discriminate]. unfold tm_text. rewrite <- (app_nil_r (html_lines _ _ _)).
      apply fits_app; [apply lines_fits; assumption|]. destruct (last_side Edge (to_xlines ls)); try reflexivity; apply fits_ws0; reflexivity.
  - cbn [block_ok neat_block] in *. apply andb_true_iff in N as [N N3]. apply andb_true_iff in N as [N1 N2]. apply str_eqb_eq in N2. subst sp. destruct cl; [|discriminate N3].
    repeat (let H := fresh "O" in apply andb_true_iff in O as [O H]). cbn [to_xblock xblock_ok cre_block wr_block tm_block html_block].
    assert (T : trimmed t = true) by assumption. apply trimmed_ends in T as (NE & LD & TR & SO). assert (NC : forallb (fun c => negb (c =? 10)) t = true) by (eapply (no10_one [10; 13]); [reflexivity|assumption]).
    split; [|split].
    + apply andb_true_iff. split; [apply andb_true_iff; split; [|exact N1]; destruct n; [discriminate|reflexivity]|]. unfold text_ok. rewrite refs_cre, SO, refs_tags, !andb_true_r.
      rewrite <- (app_nil_r (refs t)). eapply refs_clean; [apply Nat.le_refl|exact NE|exact NC|rewrite LD; reflexivity|rewrite TR; reflexivity|reflexivity|reflexivity].
    + rewrite refs_cre, app_nil_r. reflexivity.
    + rewrite elem_eq. unfold tm_elem. apply fits_part; [discriminate|]. apply fits_ws0. apply fits_app; [|apply fits_one; discriminate]. unfold tm_text. rewrite <- (app_nil_r (escape t)).
      apply fits_app; [apply refs_src|]. rewrite refs_side by exact NE. apply fits_ws0. reflexivity.
  - split; [reflexivity|]. split; [reflexivity|]. apply (fits_one (Single ($ "hr") [])). discriminate.
  - cbn [block_ok neat_block] in *. apply andb_true_iff in O as [O1 O2]. cbn [to_xblock xblock_ok cre_block wr_block tm_block html_block]. split; [|split].
    + apply andb_true_iff. split; [destruct items; [discriminate O1|reflexivity]|]. clear O1. induction items as [|x l IH]; [reflexivity|]. cbn [map forallb] in *. apply andb_true_iff in O2 as [O2 O3]. apply andb_true_iff in N as [N1 N2].
      rewrite to_item_ok by assumption. apply IH; assumption.
    + assert (E : flat_map (cre_item [if o then 35 else 42]) (map to_xitem items) = flat_map (wr_item [list_mark o]) items).
      { clear O1. induction items as [|x l IH]; [reflexivity|]. cbn [map forallb flat_map] in *. apply andb_true_iff in O2 as [O2 O3]. apply andb_true_iff in N as [N1 N2]. rewrite to_item_cre by assumption. rewrite IH by assumption. reflexivity. }
      rewrite E. clear. induction (flat_map (wr_item [list_mark o]) items) as [|x l IH]; [reflexivity|]. destruct l as [|y l]; [reflexivity|]. cbn [x_lines lines_text] in *. rewrite IH. reflexivity.
    + apply items_fits; assumption.
Qed.
Lemma doc_fine : forall blog strict d, forallb (block_ok blog) d = true -> neat_doc blog d = true ->
  xdoc_ok (map to_xblock d) = true /\ cre_doc (map to_xblock d) = wr_doc d /\ written (map to_xblock d) (html_doc blog strict d).
Proof.
  intros blog strict d O N. unfold written, tm_doc.
  assert (G : xdoc_ok (map to_xblock d) = true /\ cre_doc (map to_xblock d) = wr_doc d /\ fits (flat_map (fun b => tm_block b ++ [Ws]) (map to_xblock d)) (html_doc blog strict d));
    [|destruct G as (G1 & G2 & G3); split; [exact G1|split; [exact G2|apply fits_ws0; exact G3]]].
  induction d as [|b d IH]; [repeat split|]. cbn [forallb neat_doc] in *. apply andb_true_iff in O as [O1 O2]. apply andb_true_iff in N as [N N3]. apply andb_true_iff in N as [N1 N2].
  destruct (block_fine blog strict b O1 N1) as (B1 & B2 & B3). destruct (IH O2 N3) as (I1 & I2 & I3). unfold xdoc_ok in *. cbn [map forallb]. rewrite B1. split; [exact I1|].
  destruct d as [|c d].
  - cbn [map cre_doc wr_doc flat_map html_doc]. rewrite B2, !app_nil_r. split; [reflexivity|]. rewrite <- (app_nil_r (html_block _ _ _)). apply fits_app; [exact B3|apply fits_ws0; reflexivity].
  - change (wr_doc (b :: c :: d)) with (wr_block b ++ [10; 10] ++ wr_doc (c :: d)). change (html_doc blog strict (b :: c :: d)) with (html_block blog strict b ++ gap b ++ html_doc blog strict (c :: d)).
    change (cre_doc (to_xblock b :: map to_xblock (c :: d))) with (cre_block (to_xblock b) ++ x_gap (to_xblock b) (to_xblock c) ++ cre_doc (map to_xblock (c :: d))). rewrite B2, I2. split.
    + destruct b; try discriminate N1; destruct c; try discriminate N2; try reflexivity.
    + cbn [flat_map]. rewrite <- app_assoc. apply fits_app; [exact B3|]. apply (fits_ws _ (gap b)); [destruct b; reflexivity|exact I3].
Qed.
Theorem round_trip : forall blog v s md u strict d, canonical blog d = true ->
  exists html, creole2html (mkopts blog v s) md (wr_doc d) = (Ok html, md) /\ html2creole u strict html = Ok (wr_doc d).
Proof.
  intros blog v s md u strict d C. unfold canonical in C. apply andb_true_iff in C as [C N]. pose proof (document_spec blog v s md d C) as E. unfold doc_ok in C. apply andb_true_iff in C as [C _].
  destruct (doc_fine blog s d C N) as (X1 & X2 & X3). exists (html_doc blog s d). split; [exact E|]. rewrite <- X2. apply clean_creole; assumption.
Qed.
Theorem round_trip_html : forall blog v s md u strict d html, canonical blog d = true -> written (map to_xblock d) html ->
  exists t, html2creole u strict html = Ok t /\ creole2html (mkopts blog v s) md t = (Ok (html_doc blog s d), md).
Proof.
  intros blog v s md u strict d html C W. unfold canonical in C. apply andb_true_iff in C as [C N]. pose proof (document_spec blog v s md d C) as E. unfold doc_ok in C. apply andb_true_iff in C as [C _].
  destruct (doc_fine blog s d C N) as (X1 & X2 & _). exists (wr_doc d). split; [|exact E]. rewrite <- X2. apply clean_creole; assumption.
Qed.
