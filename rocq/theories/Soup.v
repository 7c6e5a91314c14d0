(** * Html of any shape, up to the attributes that mean nothing *)
From Coq Require Import String List Arith NArith ZArith Bool Lia.
From Verif Require Import PyStr PyStrFacts GNames Regex RegexFacts RegexRun Rules Utils Res Entities HtmlTools HtmlToolsFacts HtmlTok HtmlTokFacts.
From Verif Require Import HtmlParser Safety Spec2 TreeFacts Spec10 TokRun TagTok StripRun Spec11 CleanRun CleanDoc Spec29 Spelling HtmlBase Html2X SpellDoc Spec31.
From Verif Require EmitFacts.
Import ListNotations.
Open Scope N_scope.

Definition is_ref (r : str) : Prop := exists d, dom_wf d = true /\ r = show_dom d /\ match d with DChar _ | DEnt _ => True | _ => False end.
Definition inked (c : N) : bool := negb (is_space c || (c =? 60)).
Lemma inked_range : forall c, (48 <= c <= 57) \/ (65 <= c <= 90) \/ (97 <= c <= 122) -> inked c = true.
Proof. intros c H. unfold inked, is_space. cls. Qed.
Lemma dec_range : forall c, dec c = true -> 48 <= c <= 57.
Proof. intros c H. unfold dec in H. apply andb_true_iff in H as [H1 H2]. apply N.leb_le in H1, H2. lia. Qed.
Lemma hex_range : forall c, hexadecimal c = true -> (48 <= c <= 57) \/ (65 <= c <= 90) \/ (97 <= c <= 122).
Proof.
  intros c H. unfold hexadecimal in H. rewrite !orb_true_iff in H. destruct H as [[H|H]|H]; [apply dec_range in H; lia| |]; apply andb_true_iff in H as [H1 H2]; apply N.leb_le in H1, H2; lia.
Qed.
Lemma letter_range : forall c, letter c = true -> (65 <= c <= 90) \/ (97 <= c <= 122).
Proof.
  intros c H. unfold letter in H. apply orb_true_iff in H as [H|H]; [apply lower_letter_range in H; lia|]. apply andb_true_iff in H as [H1 H2]; apply N.leb_le in H1, H2; lia.
Qed.
Lemma ref_chars : forall r, is_ref r -> forallb inked r = true /\ exists t, r = 38 :: t.
Proof.
  intros r (d & W & -> & K). destruct d as [s|s|s| | | |]; try destruct K; cbn [dom_wf show_dom] in *; (split; [|eexists; reflexivity]).
  - assert (H : forallb inked s = true).
    { apply orb_true_iff in W as [W|W].
      - unfold all_digits in W. apply andb_true_iff in W as [_ W]. eapply forallb_impl; [|exact W]. intros c Hc. apply inked_range. apply dec_range in Hc. lia.
      - assert (E : exists t, s = 120 :: t /\ all_digits hexadecimal t = true).
        { destruct s as [|c s]; [discriminate W|]. exists s. destruct (N.eqb_spec c 120) as [->|N]; [auto|]. exfalso.
          destruct c as [|p]; [discriminate W|]. do 7 (destruct p as [p|p|]; try discriminate W). apply N. reflexivity. }
        destruct E as (t & -> & E). unfold all_digits in E. apply andb_true_iff in E as [_ E]. cbn [forallb]. change (inked 120) with true. cbn [andb].
        eapply forallb_impl; [|exact E]. intros c Hc. apply inked_range, hex_range, Hc. }
    rewrite !forallb_app, H. reflexivity.
  - destruct s as [|c s]; [discriminate W|]. apply andb_true_iff in W as [W1 W2].
    assert (H : forallb inked (c :: s) = true).
    { cbn [forallb]. apply andb_true_iff. split; [apply inked_range; apply letter_range in W1; lia|]. eapply forallb_impl; [|exact W2]. intros x Hx. apply inked_range.
      apply orb_true_iff in Hx as [Hx|Hx]; [apply letter_range in Hx|apply dec_range in Hx]; lia. }
    rewrite !forallb_app, H. reflexivity.
Qed.

Section Soup.
  Variable tk : tok -> tok -> Prop.
  Hypothesis tk_data : forall s, tk (TData s) (TData s).
  Hypothesis tk_char : forall s, tk (TCharref s) (TCharref s).
  Hypothesis tk_ent : forall s, tk (TEntity s) (TEntity s).
  Record tag_near (c : bool) (n a n' a' : str) : Prop := {
    tn_fine : tag_fine c n a; tn_fine' : tag_fine c n' a';
    tn_nonl : nonl (n ++ a) = true; tn_nonl' : nonl (n' ++ a') = true;
    tn_blk : blk n' = blk n;
    tn_slash : blk n = false -> endswith [47] a' = endswith [47] a;
    tn_60 : no60 (n ++ a) = true; tn_60' : no60 (n' ++ a') = true; tn_pre : n <> $ "pre"; tn_pre' : n' <> $ "pre";
    tn_tok : exists t t', tk t t' /\ (forall y, one None (tag_src c n a ++ y) = Next [t] y None) /\ (forall y, one None (tag_src c n' a' ++ y) = Next [t'] y None) }.
  Inductive near : list pc -> list pc -> Prop :=
  | near_nil : near [] []
  | near_ch c l l' : c <> 60 -> c <> 38 -> near l l' -> near (Ch c :: l) (Ch c :: l')
  | near_ref r l l' : is_ref r -> near l l' -> near (map Ch r ++ l) (map Ch r ++ l')
  | near_tg c n a n' a' l l' : tag_near c n a n' a' -> near l l' -> near (Tg c n a :: l) (Tg c n' a' :: l').
  Lemma near_app : forall a a' b b', near a a' -> near b b' -> near (a ++ b) (a' ++ b').
  Proof.
    intros a a' b b' H K. induction H as [|c l l' C1 C2 _ IH|r l l' R _ IH|c n x n' x' l l' T _ IH]; [exact K| | |].
    - cbn [app]. constructor; assumption.
    - rewrite <- !app_assoc. constructor; assumption.
    - cbn [app]. constructor; assumption.
  Qed.
  Lemma near_space : forall w, forallb is_space w = true -> near (map Ch w) (map Ch w).
  Proof.
    induction w as [|c w IH]; intro H; [constructor|]. cbn [forallb] in H. apply andb_true_iff in H as [H1 H2]. cbn [map]. constructor; [| |apply IH; exact H2]; intros ->; discriminate H1.
  Qed.
  Lemma near_fine : forall l l', near l l' -> (Forall pc_fine l /\ Forall pc_fine l') /\ (Forall tag_nonl l /\ Forall tag_nonl l').
  Proof.
    assert (R : forall r, is_ref r -> Forall pc_fine (map Ch r) /\ Forall tag_nonl (map Ch r)).
    { intros r H. apply ref_chars in H as [H _]. induction r as [|c r IH]; [split; constructor|]. cbn [forallb] in H. apply andb_true_iff in H as [H1 H2]. destruct (IH H2).
      split; constructor; try assumption; [|exact I]. cbn [pc_fine]. intros ->. discriminate H1. }
    intros l l' H. induction H as [|c l l' C1 C2 _ [[I1 I2] [I3 I4]]|r l l' H _ [[I1 I2] [I3 I4]]|c n x n' x' l l' T _ [[I1 I2] [I3 I4]]].
    - repeat split; constructor.
    - repeat split; constructor; try assumption; exact I.
    - destruct (R r H). repeat split; apply Forall_app; split; assumption.
    - destruct T. repeat split; constructor; assumption.
  Qed.

  Lemma sqp_solid : forall r seen p l, forallb inked r = true -> r <> [] ->
    sqp seen p (map Ch r ++ l) = map Ch (if seen then conv p else []) ++ map Ch r ++ sqp true [] l.
  Proof.
    induction r as [|c r IH]; intros seen p l H N; [congruence|]. cbn [forallb] in H. apply andb_true_iff in H as [H1 H2]. cbn [map app sqp].
    unfold inked in H1; destruct (is_space c); [discriminate H1|]. f_equal. destruct r as [|d r]; [reflexivity|]. rewrite (IH true [] l H2) by discriminate. reflexivity.
  Qed.
  Lemma szp_solid : forall r s l, forallb inked r = true -> r <> [] ->
    szp s (map Ch r ++ l) = flushp s ++ map Ch r ++ szp (Run []) l.
  Proof.
    induction r as [|c r IH]; intros s l H N; [congruence|]. cbn [forallb] in H. apply andb_true_iff in H as [H1 H2]. cbn [map app szp].
    unfold inked in H1; destruct (is_space c); [discriminate H1|]. f_equal. destruct r as [|d r]; [reflexivity|]. rewrite (IH (Run []) l H2) by discriminate. reflexivity.
  Qed.
  Lemma sqp_near : forall ps ps' seen p, near ps ps' -> forallb is_space p = true -> near (sqp seen p ps) (sqp seen p ps').
  Proof.
    assert (SP : forall (seen : bool) p, forallb is_space p = true -> near (map Ch (if seen then conv p else [])) (map Ch (if seen then conv p else []))).
    { intros [] p P; [|constructor]. apply near_space, conv_space, P. }
    intros ps ps' seen p H. revert seen p. induction H as [|c l l' C1 C2 _ IH|r l l' R _ IH|c n a n' a' l l' T _ IH]; intros seen p P.
    - constructor.
    - cbn [sqp]. destruct (is_space c) eqn:E.
      + apply IH. rewrite forallb_app. apply andb_true_iff. split; [exact P|]. cbn [forallb]. rewrite E. reflexivity.
      + apply near_app; [apply SP; exact P|]. constructor; [exact C1|exact C2|apply IH; reflexivity].
    - pose proof (ref_chars r R) as [R1 (t & R2)]. rewrite !sqp_solid by (try exact R1; rewrite R2; discriminate). apply near_app; [apply SP; exact P|]. constructor; [exact R|apply IH; reflexivity].
    - cbn [sqp]. apply near_app; [apply SP; exact P|]. constructor; [exact T|apply IH; reflexivity].
  Qed.
  Inductive st_near : sst -> sst -> Prop :=
  | sn_run p : forallb is_space p = true -> st_near (Run p) (Run p)
  | sn_tagged p c n a n' a' l : tag_near c n a n' a' -> st_near (Tagged p c n a l) (Tagged p c n' a' l).
  Lemma flush_near : forall s s', st_near s s' -> near (flushp s) (flushp s').
  Proof.
    intros s s' [p P|p c n a n' a' l T]; cbn [flushp]; [apply near_space, P|].
    unfold tag_outp. cbv zeta. pose proof (tn_blk _ _ _ _ _ T) as B. pose proof (tn_slash _ _ _ _ _ T) as E. unfold blk in B, E. rewrite B.
    assert (TT : forall l l', near l l' -> near (Tg c n a :: l) (Tg c n' a' :: l')) by (intros; constructor; assumption).
    assert (SS : forall l l', near l l' -> near (Ch 32 :: l) (Ch 32 :: l')) by (intros; constructor; [discriminate|discriminate|assumption]).
    destruct (in_list BLOCK_TAGS n); [apply TT; constructor|]. rewrite (E eq_refl).
    destruct c, (endswith [47] a), (endswith [32] l), (startswith [32] p); cbn [orb app]; repeat (apply TT || apply SS); constructor.
  Qed.
  Lemma szp_near : forall ps ps' s s', near ps ps' -> st_near s s' -> near (szp s ps) (szp s' ps').
  Proof.
    intros ps ps' s s' H. revert s s'. induction H as [|c l l' C1 C2 _ IH|r l l' R _ IH|c n a n' a' l l' T _ IH]; intros s s' L.
    - apply flush_near. exact L.
    - cbn [szp]. destruct (is_space c) eqn:E.
      + apply IH. destruct L as [p P|p c0 n a n' a' l0 T]; constructor; [|exact T]. rewrite forallb_app. apply andb_true_iff. split; [exact P|]. cbn [forallb]. rewrite E. reflexivity.
      + apply near_app; [apply flush_near; exact L|]. constructor; [exact C1|exact C2|]. apply IH. constructor. reflexivity.
    - pose proof (ref_chars r R) as [R1 (t & R2)]. rewrite !szp_solid by (try exact R1; rewrite R2; discriminate). apply near_app; [apply flush_near; exact L|].
      constructor; [exact R|]. apply IH. constructor. reflexivity.
    - cbn [szp]. destruct L as [p P|p c0 n0 a0 n0' a0' l0 T0].
      + apply IH. constructor. exact T.
      + apply near_app; [apply (flush_near _ _ (sn_tagged p c0 n0 a0 n0' a0' l0 T0))|]. apply IH. constructor. exact T.
  Qed.
  Theorem strip_near : forall ps ps', near ps ps' -> exists rs rs', strip_html (pcs_src ps) = pcs_src rs /\ strip_html (pcs_src ps') = pcs_src rs' /\ near rs rs'.
  Proof.
    intros ps ps' H. pose proof (sqp_near ps ps' false [] H eq_refl) as Q. pose proof (near_fine _ _ Q) as [[F F'] _]. pose proof (near_fine _ _ H) as [_ [N N']].
    exists (szp (Run []) (sqp false [] ps)), (szp (Run []) (sqp false [] ps')).
    assert (K : forall l, Forall pc_fine l -> rsub [] (pcs_src l) = squeeze (Run []) l).
    { intros l HF. change (pcs_src l) with (held (Run []) ++ pcs_src l). apply rsub_squeeze; [exact HF|reflexivity]. }
    rewrite !strip_html_eq, !squash_pcs by assumption. rewrite !K by assumption. rewrite !squeeze_pcs. split; [reflexivity|]. split; [reflexivity|].
    apply szp_near; [exact Q|constructor; reflexivity].
  Qed.

  (** ** tokens *)
  Definition opens (l : list pc) : Prop := markup (pcs_src l).
  Lemma near_run : forall l l', near l l' -> exists w r r', l = map Ch w ++ r /\ l' = map Ch w ++ r' /\ forallb (fun c => negb ((c =? 60) || (c =? 38))) w = true /\ near r r' /\ opens r /\ opens r'.
  Proof.
    intros l l' H. induction H as [|c l l' C1 C2 _ (w & r & r' & -> & -> & W & N & O & O')|r l l' R N _|c n a n' a' l l' T N _].
    - exists [], [], []. repeat split; constructor.
    - exists (c :: w), r, r'. repeat split; try assumption. cbn [forallb]. apply andb_true_iff. split; [|exact W]. apply N.eqb_neq in C1, C2. rewrite C1, C2. reflexivity.
    - exists [], (map Ch r ++ l), (map Ch r ++ l'). pose proof (ref_chars r R) as [_ (t & E)]. do 3 (split; [reflexivity|]). split; [constructor; assumption|]. subst r. split; right; reflexivity.
    - exists [], (Tg c n a :: l), (Tg c n' a' :: l'). do 3 (split; [reflexivity|]). split; [constructor; assumption|]. split; left; reflexivity.
  Qed.
  Lemma ref_toks : forall r, is_ref r -> exists t, tk t t /\ forall y, toks None (r ++ y) = more [t] (toks None y).
  Proof.
    intros r (d & W & -> & K). destruct d as [s|s|s| | | |]; try destruct K.
    - exists (TCharref s). split; [apply tk_char|]. intro y. apply (dom_run (DChar s) W). discriminate.
    - exists (TEntity s). split; [apply tk_ent|]. intro y. apply (dom_run (DEnt s) W). discriminate.
  Qed.
  Lemma toks_near : forall n l l', (List.length l < n)%nat -> near l l' -> exists ts ts', Forall2 tk ts ts' /\ toks None (pcs_src l) = (ts, false) /\ toks None (pcs_src l') = (ts', false).
  Proof.
    induction n as [|n IH]; intros l l' Hn H; [lia|]. destruct (near_run l l' H) as (w & r & r' & -> & -> & W & N & O & O'). rewrite app_length, map_length in Hn.
    assert (R : exists ts ts', Forall2 tk ts ts' /\ toks None (pcs_src r) = (ts, false) /\ toks None (pcs_src r') = (ts', false)).
    { inversion N as [|c l l' C1 C2 H'|x l l' R H'|c m a m' a' l l' T H']; subst.
      - exists [], []. repeat split. constructor.
      - exfalso. destruct O; congruence.
      - destruct (ref_toks x R) as (t & T1 & T2). pose proof (ref_chars x R) as [_ (z & Ez)].
        destruct (IH l l') as (ts & ts' & K1 & K2 & K3); [rewrite app_length, map_length, Ez in Hn; cbn [List.length] in Hn; lia|exact H'|].
        exists (t :: ts), (t :: ts'). split; [constructor; assumption|]. rewrite !pcs_app, !chars_src, !T2, K2, K3. split; reflexivity.
      - destruct (tn_tok _ _ _ _ _ T) as (t & t' & T1 & T2 & T3). destruct (IH l l') as (ts & ts' & K1 & K2 & K3); [cbn [List.length] in Hn; lia|exact H'|].
        exists (t :: ts), (t' :: ts'). split; [constructor; assumption|].
        change (pcs_src (Tg c m a :: l)) with (tag_src c m a ++ pcs_src l). change (pcs_src (Tg c m' a' :: l')) with (tag_src c m' a' ++ pcs_src l').
        rewrite (toks_next (tag_src c m a ++ pcs_src l) [t] (pcs_src l)) by (solve [apply T2|discriminate|left; reflexivity]).
        rewrite (toks_next (tag_src c m' a' ++ pcs_src l') [t'] (pcs_src l')) by (solve [apply T3|discriminate|left; reflexivity]). rewrite K2, K3. split; reflexivity. }
    destruct R as (ts & ts' & K1 & K2 & K3). destruct w as [|c w]; [exists ts, ts'; auto|].
    exists (TData (c :: w) :: ts), (TData (c :: w) :: ts'). split; [constructor; [apply tk_data|exact K1]|].
    rewrite !pcs_app, !chars_src. rewrite !toks_text by (try discriminate; assumption). rewrite K2, K3. split; reflexivity.
  Qed.
  Lemma near_never_pre : forall l l', near l l' -> (forall a b, pcs_src l <> a ++ $ "<pre>" ++ b) /\ (forall a b, pcs_src l' <> a ++ $ "<pre>" ++ b).
  Proof.
    assert (ONE : forall c n' m' l', tag_fine c n' m' -> no60 (n' ++ m') = true -> n' <> $ "pre" -> (forall a b, pcs_src l' <> a ++ $ "<pre>" ++ b) -> forall a b, pcs_src (Tg c n' m' :: l') <> a ++ $ "<pre>" ++ b).
    { intros c n' m' l' F N60 NP IH a b E. change (pcs_src (Tg c n' m' :: l')) with (tag_src c n' m' ++ pcs_src l') in E. unfold tag_src in E. cbn [app] in E. rewrite <- !app_assoc in E. cbn [app] in E.
      destruct a as [|d a]; cbn [app L] in E.
      + injection E as E. destruct c; [discriminate E|]. cbn [app] in E. destruct F as (F1 & F2 & F3 & F4 & F5).
        assert (Q : n' = $ "pre"); [|exact (NP Q)].
        destruct (name_split n' ($ "pre") (m' ++ 62 :: pcs_src l') (62 :: b) F2 eq_refl) as [Q _]; [| |exact E|exact Q].
        * destruct F4 as [->|(t & ->)]; eexists _, _; (split; [reflexivity|]); auto.
        * eexists _, _. split; [reflexivity|]. auto.
      + injection E as _ E.
        assert (X : no60 ((if c then [47] else []) ++ n' ++ m' ++ [62]) = true).
        { unfold no60 in *. rewrite !forallb_app in *. apply andb_true_iff in N60 as [N1 N2]. rewrite N1, N2. destruct c; reflexivity. }
        replace ((if c then [47] else []) ++ n' ++ m' ++ 62 :: pcs_src l') with (((if c then [47] else []) ++ n' ++ m' ++ [62]) ++ pcs_src l') in E by (rewrite <- !app_assoc; reflexivity).
        destruct (skip60 _ _ a (112 :: 114 :: 101 :: 62 :: b) X E) as (a' & -> & E'). exact (IH a' b E'). }
    assert (CHR : forall w l, no60 w = true -> (forall a b, pcs_src l <> a ++ $ "<pre>" ++ b) -> forall a b, pcs_src (map Ch w ++ l) <> a ++ $ "<pre>" ++ b).
    { intros w l W H a b E. rewrite pcs_app, chars_src in E. destruct (skip60 _ _ a (112 :: 114 :: 101 :: 62 :: b) W E) as (a' & -> & E'). exact (H a' b E'). }
    intros l l' H. induction H as [|c l l' C1 C2 _ [I1 I2]|r l l' R _ [I1 I2]|c n m n' m' l l' T _ [I1 I2]].
    - split; intros a b E; destruct a; discriminate E.
    - assert (W : no60 [c] = true) by (unfold no60; cbn [forallb]; apply N.eqb_neq in C1; rewrite C1; reflexivity). split; [exact (CHR [c] l W I1)|exact (CHR [c] l' W I2)].
    - assert (W : no60 r = true) by (apply ref_chars in R as [R _]; unfold no60; eapply forallb_impl; [|exact R]; intros x Hx; unfold inked in Hx; destruct (x =? 60); [rewrite orb_true_r in Hx; discriminate Hx|reflexivity]).
      split; [apply CHR; assumption|apply CHR; assumption].
    - destruct T. split; apply ONE; assumption.
  Qed.
End Soup.
