(** * An opening tag without its end is not read *)
From Coq Require Import String List Arith NArith ZArith Bool Lia.
From Verif Require Import PyStr PyStrFacts GNames Regex RegexFacts RegexRun Rules Utils Res HtmlTools HtmlTok HtmlTokFacts TokRun.
From Verif Require InlineRun.
Import ListNotations.
Open Scope N_scope.

Definition yields (o : option st) : Prop := exists s, o = Some s /\ (rest s = [] \/ exists t, rest s = 61 :: t).
Lemma y_star : forall p x y b cs k, forallb p x = true -> stop p y -> yields (k (mk (rev x ++ b) y cs)) -> yields (m (RStar true (RChr p)) (mk b (x ++ y) cs) k).
Proof. intros p x y b cs k H1 H2 (s & E & F). exists s. split; [|exact F]. apply star_take; assumption. Qed.
Lemma y_left : forall a b, yields a -> yields (orelse a b).
Proof. intros a b (s & -> & F). exists s. auto. Qed.
Lemma y_right : forall a b, a = None -> yields b -> yields (orelse a b).
Proof. intros a b -> H. exact H. Qed.
Definition gapc (c : N) : bool := is_space c || (c =? 47).
Lemma y_skip : forall w y b cs k, forallb gapc w = true -> stop gapc y -> ~ In 62 (w ++ y) -> yields (k (mk (rev w ++ b) y cs)) -> yields (m skip_slash (mk b (w ++ y) cs) k).
Proof.
  induction w as [|c w IH]; intros y b cs k W Y N Hk.
  - cbn [app rev] in *. destruct Hk as (s & E & F). exists s. split; [|exact F]. apply skip_none; [|exact E]. destruct y as [|c y]; [exact I|]. cbn [stop] in Y. unfold gapc in Y. apply orb_false_iff in Y as [Y1 Y2].
    split; [exact Y1|]. left. apply N.eqb_neq. exact Y2.
  - cbn [forallb] in W. apply andb_true_iff in W as [W1 W2]. unfold skip_slash. rewrite m_star by (apply nonnull_consuming; reflexivity). fold skip_slash. apply y_left. cbn [app]. rewrite m_alt.
    assert (K : yields (m skip_slash (mk (c :: b) (w ++ y) cs) k)).
    { apply IH; [exact W2|exact Y|intro H; apply N; right; exact H|]. cbn [rev] in Hk. rewrite <- app_assoc in Hk. exact Hk. }
    unfold gapc in W1. unfold sp. rewrite m_chr. destruct (is_space c) eqn:E; [apply y_left; exact K|]. cbn [orb] in W1. apply N.eqb_eq in W1. subst c. apply y_right; [reflexivity|].
    rewrite m_seq, m_c1. assert (A : m (c1 62) (mk (47 :: b) (w ++ y) cs) (fun s => Some s) = None).
    { apply m_c1_no. destruct (w ++ y) as [|d z] eqn:F; [exact I|]. cbn [stop]. apply N.eqb_neq. intros <-. apply N. right. rewrite F. left. reflexivity. }
    change (yields (match m (c1 62) (mk (47 :: b) (w ++ y) cs) (fun s => Some s) with Some _ => None | None => m skip_slash (mk (47 :: b) (w ++ y) cs) k end)). rewrite A. exact K.
Qed.
Lemma split_while : forall (p : N -> bool) y, exists w z, y = w ++ z /\ forallb p w = true /\ stop p z.
Proof.
  intro p. induction y as [|c y (w & z & -> & W & Z)]; [exists [], []; repeat split|]. destruct (p c) eqn:E.
  - exists (c :: w), z. split; [reflexivity|]. split; [cbn [forallb]; rewrite E; exact W|exact Z].
  - exists [], (c :: w ++ z). repeat split. exact E.
Qed.

Definition behind (b : str) : bool := match b with c :: _ => is_quote c || is_space c || (c =? 47) | [] => false end.
Definition item : regex := seqs [attr_name_re; ROpt (seqs [attr_eq_re; attr_value_re; sps]); skip_slash].
Definition fin (s : st) : option st := m sps s (fun s => Some s).
Lemma y_fin : forall b y cs, y = [] \/ (exists t, y = 61 :: t) -> yields (fin (mk b y cs)).
Proof.
  intros b y cs H. assert (S : stop is_space y) by (destruct H as [->|(t & ->)]; [exact I|reflexivity]).
  apply (y_star is_space [] y); [reflexivity|exact S|]. exists (mk (rev [] ++ b) y cs). split; [reflexivity|exact H].
Qed.
Definition ready (b y : str) : Prop := y = [] \/ (exists t, y = 61 :: t) \/ (behind b = true /\ stop gapc y).
Definition near_ready (b y : str) : Prop := match y with [] => True | c :: _ => c = 61 \/ gapc c = true \/ behind b = true end.

Lemma quote_open : forall q v k b cs, q = 39 \/ q = 34 -> ~ In q v -> m attr_value_re (mk b (q :: v) cs) k = None.
Proof.
  intros q v k b cs Q N.
  assert (ONE : forall k', m (seqs [c1 q; RStar true (RChr (fun c => negb (c =? q))); c1 q]) (mk b (q :: v) cs) k' = None).
  { intro k'. cbn [seqs]. rewrite m_seq, m_c1, m_seq. apply InlineRun.star_none. intros z y E _. apply m_c1_no. destruct y as [|d y]; [exact I|]. cbn [stop]. apply N.eqb_neq. intros <-. apply N. rewrite E. apply in_or_app. right. left. reflexivity. }
  unfold attr_value_re. cbn [alts]. rewrite !m_alt. assert (A3 : m (RSeq (RNotAhead (RChr is_quote)) (RStar true (RChr (fun c => negb ((c =? 62) || is_space c))))) (mk b (q :: v) cs) k = None).
  { rewrite m_seq. change (match m (RChr is_quote) (mk b (q :: v) cs) (fun s => Some s) with Some _ => None | None => m (RStar true (RChr (fun c => negb ((c =? 62) || is_space c)))) (mk b (q :: v) cs) k end = None).
    rewrite m_chr. replace (is_quote q) with true by (destruct Q as [-> | ->]; reflexivity). reflexivity. }
  rewrite A3. destruct Q as [-> | ->].
  - rewrite ONE. cbn [orelse seqs]. rewrite m_seq, m_c1_no by reflexivity. reflexivity.
  - cbn [seqs]. rewrite m_seq, m_c1_no by reflexivity. cbn [orelse]. specialize (ONE k). cbn [seqs] in ONE. rewrite ONE. reflexivity.
Qed.
(** a value that does not begin with a quote, up to white space *)
Lemma value_bare : forall v y b cs k, forallb (fun c => negb ((c =? 62) || is_space c)) v = true -> stop (fun c => negb ((c =? 62) || is_space c)) y -> stop is_quote (v ++ y) ->
  yields (k (mk (rev v ++ b) y cs)) -> yields (m attr_value_re (mk b (v ++ y) cs) k).
Proof.
  intros v y b cs k V Y Q Hk. unfold attr_value_re. cbn [alts seqs]. rewrite !m_alt.
  assert (QQ : stop (N.eqb 39) (v ++ y) /\ stop (N.eqb 34) (v ++ y)).
  { destruct (v ++ y) as [|c z]; [split; exact I|]. cbn [stop] in *. unfold is_quote in Q. apply orb_false_iff in Q as [Q1 Q2]. rewrite !(N.eqb_sym _ c). auto. }
  apply y_right; [rewrite m_seq, m_c1_no by apply QQ; reflexivity|]. apply y_right; [rewrite m_seq, m_c1_no by apply QQ; reflexivity|]. rewrite m_seq.
  change (yields (match m (RChr is_quote) (mk b (v ++ y) cs) (fun s => Some s) with Some _ => None | None => m (RStar true (RChr (fun c => negb ((c =? 62) || is_space c)))) (mk b (v ++ y) cs) k end)).
  rewrite m_chr_stop by exact Q. apply y_star; assumption.
Qed.
Lemma value_quoted : forall q v y b cs k, q = 39 \/ q = 34 -> ~ In q v -> yields (k (mk (q :: rev v ++ q :: b) y cs)) -> yields (m attr_value_re (mk b (q :: v ++ q :: y) cs) k).
Proof.
  intros q v y b cs k Q N Hk. unfold attr_value_re. cbn [alts seqs]. rewrite !m_alt.
  assert (ONE : yields (m (RSeq (c1 q) (RSeq (RStar true (RChr (fun c => negb (c =? q)))) (c1 q))) (mk b (q :: v ++ q :: y) cs) k)).
  { rewrite m_seq, m_c1, m_seq. apply y_star.
    - apply forallb_forall. intros c C. apply negb_true_iff, N.eqb_neq. intros ->. exact (N C).
    - cbn [stop]. rewrite N.eqb_refl. reflexivity.
    - rewrite m_c1. exact Hk. }
  destruct Q as [-> | ->]; [apply y_left; exact ONE|]. apply y_right; [rewrite m_seq, m_c1_no by reflexivity; reflexivity|]. apply y_left. exact ONE.
Qed.

Section Opt.
  Variable J : st -> option st.
  Variable top : nat.
  Hypothesis HJ : forall b y, (List.length y <= top)%nat -> ~ In 62 y -> near_ready b y -> yields (J (mk b y [])).
  Lemma after_value : forall b y, (List.length y <= top)%nat -> ~ In 62 y -> (y = [] \/ exists c z, y = c :: z /\ is_space c = true) \/ behind b = true -> yields (m sps (mk b y []) J).
  Proof.
    intros b y Hl N H. destruct (split_while is_space y) as (w & z & -> & W & Z). apply y_star; [exact W|exact Z|]. rewrite app_length in Hl. apply HJ; [lia|intro I'; apply N; apply in_or_app; right; exact I'|].
    destruct z as [|c z]; [exact I|]. right. right. destruct w as [|d w].
    - cbn [app rev] in *. destruct H as [[H|(e & t & E & S)]|H]; [discriminate H| |exact H]. injection E as -> _. cbn [stop] in Z. congruence.
    - destruct (exists_last (l := d :: w) ltac:(discriminate)) as (w' & e & E). rewrite E in W |- *. rewrite rev_app_distr. cbn [rev app behind]. rewrite forallb_app in W. apply andb_true_iff in W as [_ W]. cbn [forallb] in W. apply andb_true_iff in W as [W _].
      rewrite W, orb_true_r. reflexivity.
  Qed.
  Lemma bare_step : forall b y, (List.length y <= top)%nat -> ~ In 62 y -> stop is_quote y -> yields (m attr_value_re (mk b y []) (fun s => m sps s J)).
  Proof.
    intros b y Hl N Q. destruct (split_while (fun c => negb ((c =? 62) || is_space c)) y) as (v & z & -> & V & Z). rewrite app_length in Hl. apply value_bare; [exact V|exact Z|exact Q|].
    assert (Nz : ~ In 62 z) by (intro I'; apply N; apply in_or_app; right; exact I'). apply after_value; [lia|exact Nz|]. left. destruct z as [|c z]; [left; reflexivity|]. right. exists c, z. split; [reflexivity|].
    cbn [stop] in Z. apply negb_false_iff, orb_true_iff in Z as [Z|Z]; [|exact Z]. apply N.eqb_eq in Z. subst c. exfalso. apply Nz. left. reflexivity.
  Qed.
  Lemma opt_step : forall b y, (List.length y <= top)%nat -> ~ In 62 y -> stop (fun c => negb (is_space c || (c =? 47) || (c =? 61) || (c =? 62))) y ->
    yields (m (ROpt (seqs [attr_eq_re; attr_value_re; sps])) (mk b y []) J).
  Proof.
    intros b y Hl N Y. unfold ROpt. rewrite m_alt. cbn [seqs].
    assert (SKIP : m (RSeq attr_eq_re (RSeq attr_value_re sps)) (mk b y []) J = None -> yields (orelse (m (RSeq attr_eq_re (RSeq attr_value_re sps)) (mk b y []) J) (m REps (mk b y []) J))).
    { intro E. apply y_right; [exact E|]. apply HJ; [exact Hl|exact N|]. destruct y as [|c y]; [exact I|]. cbn [stop] in Y. apply negb_false_iff in Y. unfold near_ready, gapc.
      destruct (N.eqb_spec c 61) as [->|N61]; [auto|]. destruct (is_space c); [auto|]. destruct (c =? 47); [auto|]. cbn [orb] in Y. apply N.eqb_eq in Y. subst c. exfalso. apply N. left. reflexivity. }
    destruct (split_while is_space y) as (w & z & -> & W & Z).
    assert (Nz : ~ In 62 z) by (intro I'; apply N; apply in_or_app; right; exact I'). rewrite app_length in Hl.
    assert (MISS : (forall b0, m (RSeq (RPlus true (c1 61)) sps) (mk b0 z []) (fun s => m (RSeq attr_value_re sps) s J) = None) -> m (RSeq attr_eq_re (RSeq attr_value_re sps)) (mk b (w ++ z) []) J = None).
    { intro H. rewrite m_seq. unfold attr_eq_re. cbn [seqs]. rewrite m_seq. unfold sps at 1, sp. apply InlineRun.star_none. intros x u E X.
      destruct (app_eq_app _ _ _ _ E) as (d & [[E1 E2]|[E1 E2]]).
      - subst w u. destruct d as [|c d]; [apply H|]. rewrite forallb_app in W. apply andb_true_iff in W as [_ W]. cbn [forallb] in W. apply andb_true_iff in W as [W _]. rewrite m_seq. unfold RPlus. rewrite m_seq. cbn [app]. rewrite m_c1_no; [reflexivity|].
        cbn [stop]. apply N.eqb_neq. intros <-. discriminate W.
      - subst x z. destruct d as [|c d]; [apply H|]. rewrite forallb_app in X. apply andb_true_iff in X as [_ X]. cbn [forallb] in X. apply andb_true_iff in X as [X _]. cbn [app stop] in Z. congruence. }
    destruct z as [|c z]; [apply SKIP, MISS; reflexivity|]. destruct (N.eq_dec c 61) as [->|N61].
    2:{ apply SKIP, MISS. intro b0. rewrite m_seq. unfold RPlus. rewrite m_seq, m_c1_no; [reflexivity|]. cbn [stop]. apply N.eqb_neq. congruence. }
    destruct (split_while (N.eqb 61) z) as (e & z' & -> & He & Z'). destruct (split_while is_space z') as (w2 & y3 & -> & W2 & Y3).
    assert (N3 : ~ In 62 y3) by (intro I'; apply Nz; right; apply in_or_app; right; apply in_or_app; right; exact I').
    cbn [List.length] in Hl. rewrite !app_length in Hl.
    assert (EQ : forall b0, yields (m attr_value_re (mk b0 y3 []) (fun s => m sps s J)) -> forall b1, (b0 = rev w2 ++ rev e ++ 61 :: b1) -> yields (m (RSeq (RPlus true (c1 61)) sps) (mk b1 (61 :: e ++ w2 ++ y3) []) (fun s => m (RSeq attr_value_re sps) s J))).
    { intros b0 V b1 ->. rewrite m_seq. unfold RPlus. rewrite m_seq, m_c1. unfold c1. apply y_star; [exact He|exact Z'|]. unfold sps at 1, sp. apply y_star; [exact W2|exact Y3|]. rewrite m_seq. exact V. }
    assert (HIT : (forall b1, yields (m (RSeq (RPlus true (c1 61)) sps) (mk b1 (61 :: e ++ w2 ++ y3) []) (fun s => m (RSeq attr_value_re sps) s J))) ->
      yields (orelse (m (RSeq attr_eq_re (RSeq attr_value_re sps)) (mk b (w ++ 61 :: e ++ w2 ++ y3) []) J) (m REps (mk b (w ++ 61 :: e ++ w2 ++ y3) []) J))).
    { intro H. apply y_left. rewrite m_seq. unfold attr_eq_re. cbn [seqs]. rewrite m_seq. unfold sps at 1, sp. apply y_star; [exact W|exact Z|apply H]. }
    assert (B3 : stop is_quote y3 \/ exists q v, y3 = q :: v /\ (q = 39 \/ q = 34)).
    { destruct y3 as [|q v]; [left; exact I|]. cbn [stop]. destruct (is_quote q) eqn:E; [|left; reflexivity]. right. exists q, v. split; [reflexivity|]. unfold is_quote in E. apply orb_true_iff in E as [E|E]; apply N.eqb_eq in E; auto. }
    destruct B3 as [Q|(q & v & -> & Q)].
    - apply HIT. intro b1. eapply EQ; [|reflexivity]. apply bare_step; [lia|exact N3|exact Q].
    - cbn [List.length] in Hl. destruct (in_dec N.eq_dec q v) as [IN|NI].
      + assert (SP : exists v1 v2, v = v1 ++ q :: v2 /\ ~ In q v1).
        { clear - IN. induction v as [|d v IH]; [destruct IN|]. destruct (N.eq_dec d q) as [->|D]; [exists [], v; split; [reflexivity|intros []]|]. destruct IN as [IN|IN]; [congruence|]. destruct (IH IN) as (v1 & v2 & -> & H). exists (d :: v1), v2. split; [reflexivity|]. intros [I'|I']; [congruence|auto]. }
        destruct SP as (v1 & v2 & -> & NV). apply HIT. intro b1. eapply EQ; [|reflexivity]. apply value_quoted; [exact Q|exact NV|]. rewrite app_length in Hl. cbn [List.length] in Hl. apply after_value; [lia|intro I'; apply N3; right; apply in_or_app; right; right; exact I'|].
        right. cbn [behind]. destruct Q as [-> | ->]; reflexivity.
      + assert (BAD : forall b0 k, m attr_value_re (mk b0 (q :: v) []) k = None) by (intros; apply quote_open; assumption).
        assert (Sq : is_space q = false) by (destruct Q as [-> | ->]; reflexivity).
        destruct w2 as [|d w2'] eqn:EW.
        * destruct e as [|d e'] eqn:EE.
          -- apply SKIP, MISS. intro b0. rewrite m_seq. unfold RPlus. rewrite m_seq, m_c1. cbn [app]. unfold c1. apply InlineRun.star_none. intros x u E X. destruct x as [|c x].
             ++ cbn [app rev] in *. subst u. unfold sps at 1, sp. rewrite InlineRun.star_zero by exact Sq. rewrite m_seq. apply BAD.
             ++ exfalso. cbn [app forallb] in E, X. injection E as E1 E2. subst c. apply andb_true_iff in X as [X _]. apply N.eqb_eq in X. subst q. destruct Q; discriminate.
          -- apply HIT. intro b1. destruct (exists_last (l := d :: e') ltac:(discriminate)) as (e2 & f & EF). rewrite EF in *. clear EE EF d e'. rewrite forallb_app in He. apply andb_true_iff in He as [He Hf]. cbn [forallb] in Hf. apply andb_true_iff in Hf as [Hf _]. apply N.eqb_eq in Hf. subst f.
             cbn [app] in *. rewrite m_seq. unfold RPlus. rewrite m_seq, m_c1. rewrite <- app_assoc. cbn [app].
             assert (V : yields (m sps (mk (rev e2 ++ 61 :: b1) (61 :: q :: v) []) (fun s => m (RSeq attr_value_re sps) s J))).
             { unfold sps at 1, sp. rewrite InlineRun.star_zero by reflexivity. rewrite m_seq. apply bare_step; [|intros [I'|I']; [discriminate I'|exact (N3 I')]|reflexivity]. rewrite app_length in Hl. cbn [List.length] in *. lia. }
             destruct V as (s & V & F). exists s. split; [|exact F]. unfold c1. apply star_back; [exact He|exact V|]. intros x u E Hx X. destruct x as [|c x]; [congruence|]. cbn [app] in E. injection E as E1 E2. subst c. destruct x as [|c x].
             ++ cbn [app] in E2. subst u. unfold sps at 1, sp. rewrite InlineRun.star_zero by exact Sq. rewrite m_seq. apply BAD.
             ++ exfalso. cbn [app forallb] in E2, X. injection E2 as E2 _. subst c. apply andb_true_iff in X as [_ X]. apply andb_true_iff in X as [X _]. apply N.eqb_eq in X. subst q. destruct Q; discriminate.
        * apply HIT. intro b1. destruct (exists_last (l := d :: w2') ltac:(discriminate)) as (w3 & f & EF). rewrite EF in *. clear EW EF d w2'. rewrite forallb_app in W2. apply andb_true_iff in W2 as [W2 Hf]. cbn [forallb] in Hf. apply andb_true_iff in Hf as [Hf _].
          rewrite m_seq. unfold RPlus. rewrite m_seq, m_c1. unfold c1. apply y_star; [exact He|exact Z'|]. rewrite <- app_assoc. cbn [app]. unfold sps at 1, sp.
          assert (V : yields (m (RSeq attr_value_re sps) (mk (rev w3 ++ rev e ++ 61 :: b1) (f :: q :: v) []) J)).
          { rewrite m_seq. rewrite app_length in Hl. cbn [List.length] in Hl. apply bare_step; [cbn [List.length]; lia|intros [I'|I']; [subst f; discriminate Hf|exact (N3 I')]|]. cbn [stop]. destruct (is_quote f) eqn:E; [|reflexivity]. unfold is_quote in E. apply orb_true_iff in E as [E|E]; apply N.eqb_eq in E; subst f; discriminate Hf. }
          destruct V as (s & V & F). exists s. split; [|exact F]. apply star_back; [exact W2|exact V|]. intros x u E Hx X. destruct x as [|c x]; [congruence|]. cbn [app] in E. injection E as E1 E2. subst c. destruct x as [|c x].
          -- cbn [app] in E2. subst u. rewrite m_seq. apply BAD.
          -- exfalso. cbn [app forallb] in E2, X. injection E2 as E2 _. subst c. apply andb_true_iff in X as [_ X]. apply andb_true_iff in X as [X _]. congruence.
  Qed.
End Opt.

Lemma item_consuming : consuming item.
Proof. apply nonnull_consuming. reflexivity. Qed.
Lemma attrs_end : forall n b y, (List.length y < n)%nat -> ~ In 62 y -> ready b y -> yields (m (RStar true item) (mk b y []) fin).
Proof.
  induction n as [|n IH]; intros b y Hl N R; [lia|]. rewrite m_star by exact item_consuming.
  assert (J : forall b1 y1, (List.length y1 < n)%nat -> ~ In 62 y1 -> near_ready b1 y1 -> yields (m skip_slash (mk b1 y1 []) (fun s => m (RStar true item) s fin))).
  { intros b1 y1 L1 N1 R1. destruct (split_while gapc y1) as (w & z & -> & W & Z). apply y_skip; [exact W|exact Z|exact N1|]. rewrite app_length in L1. apply IH; [lia|intro I'; apply N1; apply in_or_app; right; exact I'|].
    destruct w as [|c w].
    - cbn [app rev] in *. destruct z as [|d z]; [left; reflexivity|]. destruct R1 as [->|[R1|R1]]; [right; left; eauto| |right; right; auto]. cbn [stop] in Z. congruence.
    - right. right. split; [|exact Z]. destruct (exists_last (l := c :: w) ltac:(discriminate)) as (w' & e & E). rewrite E in W |- *. rewrite rev_app_distr. cbn [rev app behind]. rewrite forallb_app in W. apply andb_true_iff in W as [_ W]. cbn [forallb] in W. apply andb_true_iff in W as [W _].
      unfold gapc in W. rewrite <- orb_assoc, W, orb_true_r. reflexivity. }
  destruct y as [|c y].
  - apply y_right; [|apply y_fin; left; reflexivity]. unfold item. cbn [seqs]. rewrite m_seq. unfold attr_name_re. cbn [seqs]. rewrite m_seq. cbn [m bef rest caps]. destruct b as [|d b]; [reflexivity|]. destruct (xorb _ _); reflexivity.
  - destruct (behind b) eqn:B.
    + assert (C : is_space c = false /\ c <> 47).
      { destruct R as [R|[(t & R)|[_ R]]]; [discriminate R|injection R as -> _; split; [reflexivity|discriminate]|]. cbn [stop] in R. unfold gapc in R. apply orb_false_iff in R as [R1 R2]. apply N.eqb_neq in R2. auto. }
      destruct C as [C1 C2]. assert (C3 : c <> 62) by (intros ->; apply N; left; reflexivity). apply y_left. unfold item. cbn [seqs]. rewrite m_seq. unfold attr_name_re at 1. cbn [seqs]. rewrite m_seq.
      assert (BH : forall k, m (RBehind false (fun c => is_quote c || is_space c || (c =? 47))) (mk b (c :: y) []) k = k (mk b (c :: y) [])).
      { intro k. cbn [m bef rest caps]. destruct b as [|d b]; [discriminate B|]. cbn [behind] in B. rewrite B. reflexivity. }
      rewrite BH, m_seq, m_chr. replace (is_space c || (c =? 47) || (c =? 62)) with false by (rewrite C1; apply N.eqb_neq in C2, C3; rewrite C2, C3; reflexivity). cbn [negb].
      destruct (split_while (fun c => negb (is_space c || (c =? 47) || (c =? 61) || (c =? 62))) y) as (x & z & -> & X & Z). apply y_star; [exact X|exact Z|]. rewrite m_seq. cbn [List.length] in Hl. rewrite app_length in Hl.
      apply (opt_step _ (List.length z)).
      * intros b1 y1 L1 N1 R1. apply J; [lia|exact N1|exact R1].
      * lia.
      * intro I'. apply N. right. apply in_or_app. right. exact I'.
      * exact Z.
    + destruct R as [R|[(t & R)|[R _]]]; [discriminate R| |congruence]. apply y_right; [|apply y_fin; right; eauto]. unfold item. cbn [seqs]. rewrite m_seq. unfold attr_name_re. cbn [seqs]. rewrite m_seq. cbn [m bef rest caps]. destruct b as [|d b]; [reflexivity|]. cbn [behind] in B. rewrite B. reflexivity.
Qed.
Theorem unfinished : forall c x, is_alpha c = true -> ~ In 62 x -> ~ In 0 x -> check_for_whole_start_tag (60 :: c :: x) = None.
Proof.
  intros c x C N N0. unfold check_for_whole_start_tag.
  assert (Y : yields (m locatestarttagend_re (mk [] (60 :: c :: x) []) (fun s => Some s))).
  { unfold locatestarttagend_re. cbn [seqs]. rewrite m_seq, m_c1, m_seq, m_chr, C, m_seq. destruct (split_while is_tagchar x) as (nm & y & -> & NM & Y). apply y_star; [exact NM|exact Y|]. rewrite m_seq. unfold ROpt at 1. rewrite m_alt. apply y_left. rewrite m_seq.
    assert (Ny : ~ In 62 y) by (intro I'; apply N; apply in_or_app; right; exact I').
    destruct (split_while gapc y) as (w & z & -> & W & Z). apply y_star; [exact W|exact Z|]. apply (attrs_end (S (List.length z))); [lia|intro I'; apply Ny; apply in_or_app; right; exact I'|].
    destruct w as [|d w].
    - cbn [app] in *. destruct z as [|d z]; [left; reflexivity|]. exfalso. cbn [stop] in Y, Z. unfold gapc in Z. apply orb_false_iff in Z as [Z1 Z2]. unfold is_tagchar in Y. apply negb_false_iff in Y.
      assert (D62 : d <> 62) by (intros ->; apply Ny; left; reflexivity). assert (D0 : d <> 0) by (intros ->; apply N0; apply in_or_app; right; left; reflexivity). apply N.eqb_neq in D62, D0. rewrite Z2, D62, D0, !orb_false_r in Y.
      repeat (apply orb_true_iff in Y as [Y|Y]); apply N.eqb_eq in Y; subst d; discriminate Z1.
    - right. right. split; [|exact Z]. destruct (exists_last (l := d :: w) ltac:(discriminate)) as (w' & e & E). rewrite E in W |- *. rewrite rev_app_distr. cbn [rev app behind]. rewrite forallb_app in W. apply andb_true_iff in W as [_ W]. cbn [forallb] in W. apply andb_true_iff in W as [W _].
      unfold gapc in W. rewrite <- orb_assoc, W, orb_true_r. reflexivity. }
  destruct Y as (s & Y & F). pose proof (m_sound _ _ _ _ Y) as (s' & MT & E). injection E as ->. apply Mt_ext in MT as (w & cs & X). unfold ext in X. cbn [rest bef caps] in X. destruct X as (X1 & X2 & X3 & _).
  unfold match_at. change (skipn 0 (60 :: c :: x)) with (60 :: c :: x). change (rev (firstn 0 (60 :: c :: x))) with (@nil char). rewrite X1 in Y |- *.
  assert (T : try_at locatestarttagend_re false [] (w ++ rest s) = Some (mkm w (caps s))).
  { apply try_at_hit. rewrite Y. destruct s as [b1 y1 c1']. cbn [bef rest caps] in *. rewrite X2. reflexivity. }
  match goal with |- context [try_at ?r ?f ?b ?y] => replace (try_at r f b y) with (Some (mkm w (caps s))) by (symmetry; exact T) end. cbn [mtxt].
  match goal with |- context [skipn ?n ?y] => replace (skipn n y) with (rest s) by (symmetry; exact (skipn_app_exact w (rest s))) end. destruct F as [->|(t & ->)]; reflexivity.
Qed.
