(** * How the block rules match unambiguous headings, rules, code, lists and tables *)
From Coq Require Import String List Arith NArith ZArith Bool Lia.
From Verif Require Import PyStr PyStrFacts GNames Regex Rules RegexFacts RegexRun Utils Spec4 Spec5 InlineRun BlockRun.
Import ListNotations.
Open Scope N_scope.

(** ** character classes written as a choice *)
Lemma alt_chr : forall p q s k, m (RAlt (RChr p) (RChr q)) s k = m (RChr (fun c => p c || q c)) s k.
Proof.
  intros p q [b [|c t] cs] k; [reflexivity|]. rewrite m_alt, !m_chr. destruct (p c), (q c); cbn [orb]; try reflexivity;
  destruct (k (mk (c :: b) t cs)); reflexivity.
Qed.
Lemma star_same : forall g r1 r2, (forall s k, m r1 s k = m r2 s k) -> consuming r1 -> consuming r2 ->
  forall s k, m (RStar g r1) s k = m (RStar g r2) s k.
Proof.
  intros g r1 r2 H C1 C2 s k. remember (List.length (rest s)) as n eqn:E. assert (Hn : (List.length (rest s) <= n)%nat) by lia. clear E.
  revert s Hn. induction n as [n IH] using lt_wf_ind. intros s Hn.
  rewrite (m_star g r1), (m_star g r2) by assumption. rewrite H.
  assert (E : m r2 s (fun s' => m (RStar g r1) s' k) = m r2 s (fun s' => m (RStar g r2) s' k)).
  { apply m_ext. intros s' Hs. apply C2 in Hs. apply (IH (List.length (rest s'))); lia. }
  rewrite E. reflexivity.
Qed.
Lemma star_alt_chr : forall g p q s k, m (RStar g (RAlt (RChr p) (RChr q))) s k = m (RStar g (RChr (fun c => p c || q c))) s k.
Proof.
  intros. apply star_same; [apply alt_chr|apply nonnull_consuming; reflexivity|apply consuming_chr].
Qed.

(** text whose last character is not in [p], followed by anything *)
Lemma class_inside : forall (p : N -> bool) x2 y z v, x2 <> [] -> last_is p x2 = false -> x2 ++ y = z ++ v -> forallb p z = true ->
  exists d x3, v = d :: x3 ++ y /\ (exists z', x2 = z' ++ d :: x3).
Proof.
  intros p x2 y z. revert x2. induction z as [|c z IH]; intros x2 v Hn Hl E Hz.
  - cbn [app] in E. subst v. destruct x2 as [|d x2]; [congruence|]. exists d, x2. split; [reflexivity|]. exists []. reflexivity.
  - destruct x2 as [|d x2]; [congruence|]. cbn [app] in E. inversion E; subst d.
    cbn [forallb] in Hz. apply andb_true_iff in Hz as [Hc Hz].
    assert (Hx : x2 <> []).
    { intros ->. unfold last_is in Hl. cbn in Hl. rewrite Hc in Hl. discriminate. }
    assert (Hl' : last_is p x2 = false).
    { unfold last_is in *. cbn [rev] in Hl. rewrite head_is_app in Hl; [exact Hl|].
      intro R. apply Hx. rewrite <- (rev_involutive x2), R. reflexivity. }
    destruct (IH x2 v Hx Hl' H1 Hz) as (d & x3 & -> & z' & ->). exists d, x3. split; [reflexivity|]. exists (c :: z'). reflexivity.
Qed.
Lemma no_nl : forall cs x d z x3, In 10 cs -> no_char cs x = true -> x = z ++ d :: x3 -> (d =? 10) = false.
Proof.
  intros cs x d z x3 Hi Hn ->. destruct (N.eqb_spec d 10); [|reflexivity]. subst d. exfalso.
  apply (no_char_In cs _ 10 Hn); [|exact Hi]. apply in_or_app. right. left. reflexivity.
Qed.

(** ** headings *)
Definition head_caps (n : nat) (w t : str) : list (gname * str) := [(G_head, w); (G_head_text, t); (G_head_head, repeat 61 n)].
Lemma forallb_repeat : forall (p : N -> bool) c n, p c = true -> forallb p (repeat c n) = true.
Proof. induction n; intro H; [reflexivity|]. cbn. rewrite H. auto. Qed.
Lemma last_is_orb : forall p q t, last_is (fun c => p c || q c) t = last_is p t || last_is q t.
Proof. intros p q t. unfold last_is. destruct (rev t); reflexivity. Qed.
Lemma head_hit : forall n sp0 t cl T b, block_ok true (BHead n sp0 t cl) = true -> bol b = true -> tail T = true ->
  let w := wr_block (BHead n sp0 t cl) in
  m r_head (mk b (w ++ T) []) fin = Some (mk (rev w ++ b) T (head_caps n w t)).
Proof.
  intros n sp0 t cl T b Hok Hb HT w. cbn [block_ok] in Hok. rewrite !andb_true_iff, !negb_true_iff in Hok.
  destruct Hok as [[[[[[Hn Hsp] Ht] Hnl] Hh] Hl] Hcl]. unfold trimmed in Ht. rewrite !andb_true_iff, !negb_true_iff in Ht.
  destruct Ht as [[Ht1 Ht2] Ht3].
  assert (Hs : forallb is_space sp0 = true).
  { rewrite forallb_forall in *. intros x Hx. specialize (Hsp x Hx). apply orb_true_iff in Hsp as [H|H]; apply N.eqb_eq in H; subst x; reflexivity. }
  unfold r_head. rewrite m_grp. unfold seqs. rewrite m_seq, m_bol, Hb, m_seq.
  subst w. cbn [wr_block]. destruct n as [|n]; [discriminate|]. rewrite m_grp. unfold RPlus. rewrite m_seq. unfold c1 at 1.
  cbn [repeat app]. rewrite m_chr. change (61 =? 61) with true. cbv iota.
  repeat rewrite <- app_assoc.
  assert (Hst : stop (N.eqb 61) (sp0 ++ t ++ cl ++ T)).
  { destruct sp0 as [|c s]; cbn [app].
    - destruct t as [|c t]; [discriminate|]. cbn [app stop]. cbn [head_is] in Hh. exact Hh.
    - cbn [stop]. cbn [forallb] in Hs. apply andb_true_iff in Hs as [Hs _]. destruct (N.eqb_spec 61 c); [subst c; discriminate|reflexivity]. }
  apply star_take; [apply forallb_repeat; reflexivity|exact Hst|]. cbn [bef rest caps]. rewrite m_seq.
  unfold sps, sp. apply star_take; [exact Hs| |].
  { destruct t as [|c t]; [discriminate|]. exact Ht1. }
  rewrite m_seq. unfold dotstar_lazy, dot. apply star_lazy_grp.
  - apply (no_char_dot [10; 13]); [left; reflexivity|exact Hnl].
  - rewrite m_seq. unfold c1. rewrite star_alt_chr. apply lazy_until.
    + rewrite forallb_forall in *. intros x Hx. specialize (Hcl x Hx). apply orb_true_iff in Hcl as [H|H]; apply N.eqb_eq in H; subst x; reflexivity.
    + rewrite m_eol. assert (eol T = true) as -> by (destruct T; [reflexivity|exact HT]). unfold fin. cbn [bef rest caps]. f_equal. f_equal.
      * cbn [rev]. repeat (rewrite ?rev_app_distr, <- ?app_assoc; cbn [rev app]). reflexivity.
      * unfold head_caps. f_equal; [|f_equal].
        -- f_equal. 
           match goal with |- firstn _ ?l = ?w => replace l with (w ++ T) by (cbn [app repeat]; repeat (rewrite <- app_assoc; cbn [app]); reflexivity) end.
           apply firstn_grp.
        -- f_equal. f_equal. exact (firstn_grp (repeat 61 (S n)) _).
    + intros x1 x2 -> Hx2. rewrite m_eol. destruct x2 as [|c x2]; [congruence|]. cbn [app eol].
      rewrite forallb_forall in Hcl. assert (Hc : In c (x1 ++ c :: x2)) by (apply in_or_app; right; left; reflexivity).
      specialize (Hcl c Hc). apply orb_true_iff in Hcl as [H|H]; apply N.eqb_eq in H; subst c; reflexivity.
  - intros x1 x2 -> Hx2. rewrite m_seq. unfold c1. rewrite star_alt_chr. apply star_none. intros z y Ez Hz. rewrite m_eol.
    assert (L : last_is (fun c => (61 =? c) || is_space c) x2 = false).
    { rewrite last_is_orb. rewrite last_is_suffix in Ht2, Hl by exact Hx2. rewrite Ht2, Hl. reflexivity. }
    destruct (class_inside _ _ _ _ _ Hx2 L Ez Hz) as (d & x3 & -> & z' & E). cbn [eol].
    rewrite (no_nl [10; 13] (x1 ++ x2) d (x1 ++ z') x3); [reflexivity|left; reflexivity|exact Hnl|rewrite E, app_assoc; reflexivity].
Qed.

(** ** rules: [p] is nothing or the end of an empty line *)
Definition lead (p : str) : Prop := p = [] \/ p = [10].
Lemma lead_space : forall p, lead p -> forallb is_space p = true.
Proof. intros p [->| ->]; reflexivity. Qed.
Lemma sep_hit : forall p T b k r, lead p -> bol b = true -> tail T = true ->
  k (mk (rev (p ++ $ "----") ++ b) T [(G_separator, p ++ $ "----")]) = Some r ->
  m r_separator (mk b (p ++ $ "----" ++ T) []) k = Some r.
Proof.
  intros p T b k r Hp Hb HT Hk. unfold r_separator, seqs. rewrite m_seq, m_grp, m_seq, m_bol, Hb, m_seq.
  unfold sps, sp. apply star_take; [apply lead_space; exact Hp|reflexivity|].
  rewrite m_lit. cbn [bef rest caps]. rewrite m_seq, star_zero.
  - rewrite m_eol. assert (eol T = true) as -> by (destruct T; [reflexivity|exact HT]).
    pose proof (firstn_grp (p ++ $ "----") T) as F. rewrite <- app_assoc in F. rewrite F.
    rewrite rev_app_distr, <- app_assoc in Hk. exact Hk.
  - destruct T as [|c T]; [exact I|]. cbn in HT. apply N.eqb_eq in HT. subst c. reflexivity.
Qed.

(** ** code *)
Definition body (lines : list str) : str := flat_map (fun l => l ++ [10]) lines.
Lemma lines_text_last : forall x, lines_text [x] = x.
Proof. reflexivity. Qed.
Lemma lines_body : forall a lines z, lines_text (a :: lines ++ [z]) = a ++ [10] ++ body lines ++ z.
Proof.
  intros a lines. revert a. induction lines as [|l r IH]; intros a z; [reflexivity|].
  cbn [app]. change (lines_text (a :: l :: r ++ [z])) with (a ++ [10] ++ lines_text (l :: r ++ [z])). rewrite IH.
  unfold body. cbn [flat_map]. rewrite <- !app_assoc. reflexivity.
Qed.
Definition code_line (l : str) : bool := no_char [10; 13] l && negb (startswith ($ "}}}") l) && negb (contains ($ "~}}}") l).
Lemma body_ends : forall lines y, forallb code_line lines = true ->
  forall x1 x2 b, body lines = x1 ++ x2 -> x2 <> [] -> bol (rev x1 ++ 10 :: b) = true -> startswith ($ "}}}") (x2 ++ y) = false.
Proof.
  induction lines as [|l lines IH]; intros y Hl x1 x2 b E Hx Hb.
  - destruct x1; [cbn in E; congruence|discriminate].
  - cbn [forallb] in Hl. apply andb_true_iff in Hl as [Hl Hls]. pose proof Hl as Hl'. unfold code_line in Hl'.
    rewrite !andb_true_iff, !negb_true_iff in Hl'. destruct Hl' as [[H1 H2] H3].
    unfold body in E. cbn [flat_map] in E. fold (body lines) in E.
    destruct x1 as [|c x1].
    + cbn [app] in E. subst x2. rewrite <- !app_assoc. cbn [app]. rewrite startswith_line; [exact H2|reflexivity|reflexivity].
    + (* inside the line or after it *)
      destruct (app_eq_app _ _ _ _ E) as (v & [[E1 E2]|[E1 E2]]).
      * destruct v as [|d v].
        { rewrite app_nil_r in E1. cbn [app] in E2. destruct lines as [|l2 r2]; [subst x2; contradiction|].
          apply (IH y Hls [] x2 (rev l ++ b)); [symmetry; exact E2|exact Hx|reflexivity]. }
        exfalso.
        assert (E3 : exists v', l = (c :: x1) ++ v').
        { destruct (exists_last (l := d :: v) ltac:(discriminate)) as (v' & d' & E3). rewrite E3, app_assoc in E1.
          apply app_inj_tail in E1 as [E1 _]. exists v'. exact E1. }
        destruct E3 as (v' & ->). destruct (rev (c :: x1)) as [|e r] eqn:R; [exact (rev_cons_ne c x1 R)|].
        cbn [app] in Hb. cbn [bol] in Hb. apply N.eqb_eq in Hb. subst e.
        apply (no_char_In [10; 13] _ 10 H1); [|left; reflexivity]. apply in_or_app. left. rewrite in_rev, R. left. reflexivity.
      * apply (IH y Hls v x2 (rev l ++ 10 :: b)); [exact E2|exact Hx|].
        rewrite E1 in Hb. rewrite !rev_app_distr in Hb. cbn [rev app] in Hb. rewrite <- app_assoc in Hb. exact Hb.
Qed.
Definition code_caps (w t : str) : list (gname * str) := [(G_pre_block, w); (G_pre_block_text, t)].
Lemma anyc_star : forall g s k, m (RStar g anyc) s k = m (RStar g (RChr (fun c => is_dot c || (10 =? c)))) s k.
Proof. intros. apply star_alt_chr. Qed.
Lemma any_true : forall x, forallb (fun c => is_dot c || (10 =? c)) x = true.
Proof. intro x. apply forallb_forall. intros c _. unfold is_dot. rewrite (N.eqb_sym 10). destruct (c =? 10); reflexivity. Qed.
Lemma preb_hit : forall blog lines T b, block_ok blog (BCode lines) = true -> bol b = true ->
  let w := wr_block (BCode lines) in
  m r_pre_block (mk b (w ++ T) []) fin = Some (mk (rev w ++ b) T (code_caps w (lines_text ([] :: lines ++ [[]])))).
Proof.
  intros blog lines T b Hok Hb w. cbn [block_ok] in Hok. apply andb_true_iff in Hok as [Hl H1].
  change (forallb code_line lines = true) in Hl.
  subst w. cbn [wr_block]. rewrite !lines_body. cbn [app]. rewrite app_nil_r.
  unfold r_pre_block. rewrite m_grp. unfold seqs at 1. rewrite m_seq, m_bol, Hb, m_seq.
  rewrite <- app_assoc.
  match goal with |- context [mk b ?l []] => change l with ($ "{{{" ++ 10 :: body lines ++ $ "}}}" ++ T) end.
  rewrite m_lit, m_seq.
  change (10 :: body lines ++ $ "}}}" ++ T) with ([] ++ 10 :: body lines ++ $ "}}}" ++ T).
  unfold sps, sp. apply star_back; [reflexivity| |].
  - cbn [rev app]. rewrite m_seq, m_eol. cbn [eol]. change (10 =? 10) with true. cbv iota. rewrite m_seq, m_grp, m_seq.
    unfold ROpt. rewrite m_alt.
    match goal with |- orelse ?a _ = _ => assert (a = None) as -> end.
    { unfold seqs. rewrite m_seq. unfold c1 at 1. rewrite m_chr. reflexivity. }
    cbn [orelse]. rewrite m_eps. unfold RPlus. rewrite m_seq. unfold anyc at 1. unfold dot, c1. rewrite alt_chr, m_chr.
    change (is_dot 10 || (10 =? 10)) with true. cbv iota. fold (c1 10). fold dot. fold anyc. rewrite anyc_star.
    apply lazy_until; [apply any_true| |].
    + cbn [bef rest caps]. rewrite m_seq, m_bol. 
      match goal with |- (if bol ?x then _ else _) = _ => assert (B : bol x = true) end.
      { clear. destruct lines as [|l r] using rev_ind; [reflexivity|]. unfold body. rewrite flat_map_app. cbn [flat_map].
        rewrite app_nil_r, !rev_app_distr. reflexivity. }
      rewrite B. match goal with |- m _ (mk ?bb _ ?cc) _ = _ => change (125 :: 125 :: 125 :: T) with ($ "}}}" ++ T) at 1; rewrite (m_lit ($ "}}}") bb T cc) end. unfold fin. cbn [bef rest caps]. f_equal. f_equal.
      * repeat (rewrite ?rev_app_distr, <- ?app_assoc; cbn [rev app]). reflexivity.
      * unfold code_caps. f_equal; [|f_equal].
        -- f_equal. match goal with |- firstn _ ?l = ?w => replace l with (w ++ T) by (cbn [app]; repeat (rewrite <- app_assoc; cbn [app]); reflexivity) end.
           apply firstn_grp.
        -- f_equal. exact (firstn_grp (10 :: body lines) _).
    + intros x1 x2 E Hx2. rewrite m_seq, m_bol. match goal with |- (if bol ?x then _ else _) = _ => destruct (bol x) eqn:B; [|reflexivity] end.
      apply m_lit_none. eapply body_ends; [exact Hl|exact E|exact Hx2|exact B].
  - intros z y' E Hne Hz. rewrite m_seq, m_eol. destruct z as [|c z]; [congruence|]. injection E as <- E.
    cbn [forallb] in Hz. apply andb_true_iff in Hz as [_ Hz].
    assert (Bl : blank (z ++ y') = false).
    { rewrite <- E. destruct lines as [|l r]; [discriminate|]. apply negb_true_iff in H1. cbn [forallb] in Hl. apply andb_true_iff in Hl as [Hl _].
      unfold code_line in Hl. rewrite !andb_true_iff in Hl. destruct Hl as [[Hl _] _]. unfold body. cbn [flat_map]. rewrite <- !app_assoc.
      rewrite blank_tail; [exact H1|exact Hl|reflexivity]. }
    rewrite (blank_eol z y' Hz Bl). reflexivity.
Qed.
(** no line is an escaped end *)
Lemma contains_app_nl : forall pat x y, no_char [10] pat = true -> pat <> [] -> contains pat (x ++ 10 :: y) = contains pat x || contains pat y.
Proof.
  intros pat x y Hp Hn. induction x as [|c x IH].
  - cbn [app contains]. assert (startswith pat (10 :: y) = false) as ->.
    { destruct pat as [|c pat]; [congruence|]. cbn in Hp. apply andb_true_iff in Hp as [Hp _]. cbn [startswith].
      destruct (N.eqb_spec c 10) as [->|]; [discriminate|reflexivity]. }
    destruct pat; [congruence|]. reflexivity.
  - cbn [app contains]. rewrite IH. rewrite orb_assoc. f_equal. f_equal.
    change (c :: x ++ 10 :: y) with ((c :: x) ++ 10 :: y). generalize (c :: x). clear IH c x. intro x.
    revert x. clear Hn. induction pat as [|d pat IH]; intro x; [destruct x; reflexivity|].
    cbn in Hp. apply andb_true_iff in Hp as [Hd Hp]. destruct x as [|c x].
    + cbn [app startswith]. destruct (N.eqb_spec d 10) as [->|]; [discriminate|reflexivity].
    + cbn [app startswith]. rewrite IH; [reflexivity|exact Hp].
Qed.
Lemma body_clean : forall lines, forallb code_line lines = true -> contains ($ "~}}}") (body lines) = false.
Proof.
  induction lines as [|l r IH]; intro H; [reflexivity|]. cbn [forallb] in H. apply andb_true_iff in H as [Hl Hr].
  unfold body. cbn [flat_map]. rewrite <- app_assoc. cbn [app]. rewrite contains_app_nl by (reflexivity || discriminate).
  fold (body r). rewrite (IH Hr). unfold code_line in Hl. rewrite !andb_true_iff, !negb_true_iff in Hl. destruct Hl as [_ ->]. reflexivity.
Qed.
Lemma contains_suffix : forall pat z y, contains pat (z ++ y) = false -> startswith pat y = false.
Proof.
  induction z as [|c z IH]; intros y H.
  - cbn [app] in H. destruct y; cbn [contains] in H; apply orb_false_iff in H as [H _]; exact H.
  - cbn [app contains] in H. apply orb_false_iff in H as [_ H]. auto.
Qed.
Lemma pre_escape_no : forall x b, contains ($ "~}}}") x = false -> scan pre_escape_re 0 b x = map Datatypes.inl x.
Proof.
  assert (M : forall x b, contains ($ "~}}}") x = false -> m pre_escape_re (mk b x []) (fun s => Some s) = None).
  { intros x b H. unfold pre_escape_re, seqs. rewrite m_seq, m_bol. destruct (bol b); [|reflexivity].
    rewrite m_seq, m_grp. unfold sps at 1, sp at 1. apply star_none. intros z y -> Hz. apply contains_suffix in H.
    rewrite m_seq. unfold c1. destruct y as [|c y]; [reflexivity|]. cbn [bef rest caps]. rewrite m_chr.
    destruct (126 =? c) eqn:E; [|reflexivity]. rewrite m_seq, m_grp, m_seq. apply m_lit_none.
    change ($ "~}}}") with (126 :: $ "}}}") in H. cbn [startswith] in H. rewrite E in H. exact H. }
  induction x as [|c x IH]; intros b H.
  - rewrite scan_end, at_pos_miss; [reflexivity|]. apply M. exact H.
  - rewrite scan_miss by (apply M; exact H). cbn [map]. rewrite IH; [reflexivity|].
    cbn [contains] in H. apply orb_false_iff in H as [_ H]. exact H.
Qed.
Lemma resub_code : forall lines f, forallb code_line lines = true ->
  resub pre_escape_re f (lines_text ([] :: lines ++ [[]])) = lines_text ([] :: lines ++ [[]]).
Proof.
  intros lines f H. rewrite lines_body, app_nil_r. cbn [app]. unfold resub. rewrite pre_escape_no.
  - generalize (10 :: body lines). clear. induction l as [|c l IH]; [reflexivity|]. cbn [map flat_map app]. rewrite IH. reflexivity.
  - change (10 :: body lines) with ([] ++ 10 :: body lines). rewrite contains_app_nl by (reflexivity || discriminate).
    rewrite body_clean by exact H. reflexivity.
Qed.

(** ** lists *)
Definition tail2 (T : str) : bool :=
  match T with [] => true | c :: T' => (c =? 10) && match T' with d :: X => (d =? 10) && truthy X && negb (head_is is_space X) | [] => false end end.
Lemma tail2_cases : forall T, tail2 T = true -> T = [] \/ exists X, T = 10 :: 10 :: X /\ truthy X = true /\ head_is is_space X = false.
Proof.
  intros [|c [|d X]] H; [left; reflexivity| |].
  - cbn in H. rewrite andb_false_r in H. discriminate.
  - right. cbn [tail2] in H. rewrite !andb_true_iff, negb_true_iff in H. destruct H as [H1 [[H2 H3] H4]].
    apply N.eqb_eq in H1, H2. subst. exists X. auto.
Qed.
Lemma tail2_tail : forall T, tail2 T = true -> tail T = true.
Proof. intros T H. apply tail2_cases in H as [->|(X & -> & _)]; reflexivity. Qed.
Definition list_line : Type := str * str.
Definition line_of (l : list_line) : str := fst l ++ 32 :: snd l.
Definition list_line_ok (l : list_line) : Prop :=
  forallb bullet (fst l) = true /\ fst l <> [] /\ trimmed (snd l) = true /\ no_char [10; 13] (snd l) = true.
Definition more_lines (ls : list list_line) : str := flat_map (fun l => 10 :: line_of l) ls.
Lemma bullets_text : forall (A : Type) (f : A -> str) l r, lines_text (map f (l :: r)) = f l ++ flat_map (fun x => 10 :: f x) r.
Proof.
  intros A f l r. revert l. induction r as [|x r IH]; intro l; [cbn; rewrite app_nil_r; reflexivity|].
  change (lines_text (map f (l :: x :: r))) with (f l ++ [10] ++ lines_text (map f (x :: r))). rewrite IH. reflexivity.
Qed.
Definition r_more : regex := seqs [ c1 10; RStar true (RChr (fun c => (c =? 32) || (c =? 9))); RPlus true (RChr is_bullet); RStar true dot; REol ].
Lemma dots : forall x, no_char [10; 13] x = true -> forallb is_dot x = true.
Proof. intros x H. apply (no_char_dot [10; 13]); [left; reflexivity|exact H]. Qed.
Lemma tail_eol : forall T, tail T = true -> eol T = true.
Proof. intros [|c T] H; [reflexivity|exact H]. Qed.
Lemma more_tail : forall ls T, tail T = true -> tail (more_lines ls ++ T) = true.
Proof. intros [|l ls] T H; [exact H|reflexivity]. Qed.
Lemma line_rest : forall ls T l b cs k r, list_line_ok l -> tail T = true ->
  k (mk (rev (snd l) ++ 32 :: b) (more_lines ls ++ T) cs) = Some r ->
  m (RStar true dot) (mk b (32 :: snd l ++ more_lines ls ++ T) cs) (fun s => m REol s k) = Some r.
Proof.
  intros ls T l b cs k r (H1 & H2 & H3 & H4) HT Hk.
  change (32 :: snd l ++ more_lines ls ++ T) with ((32 :: snd l) ++ more_lines ls ++ T).
  unfold dot. apply star_take; [cbn [forallb]; rewrite dots by exact H4; reflexivity|apply tail_stop, more_tail; exact HT|].
  rewrite m_eol, tail_eol by (apply more_tail; exact HT). cbn [rev]. rewrite <- app_assoc. exact Hk.
Qed.
(** no further item *)
Definition no_more (T : str) : Prop := forall b cs k, m r_more (mk b T cs) k = None.
Lemma tail2_no_more : forall T, tail2 T = true -> no_more T.
Proof.
  intros T HT b cs k. unfold r_more, seqs. rewrite m_seq. unfold c1. destruct (tail2_cases T HT) as [->|(X & -> & _)]; [reflexivity|].
  rewrite m_chr. change (10 =? 10) with true. cbv iota. rewrite m_seq, star_zero by reflexivity. unfold RPlus. rewrite m_seq, m_seq, m_chr. reflexivity.
Qed.
Lemma more_hit_any : forall ls T b cs k r, Forall list_line_ok ls -> tail T = true -> no_more T ->
  k (mk (rev (more_lines ls) ++ b) T cs) = Some r ->
  m (RStar true r_more) (mk b (more_lines ls ++ T) cs) k = Some r.
Proof.
  induction ls as [|l ls IH]; intros T b cs k r Hl HT HM Hk.
  - cbn [more_lines flat_map app rev] in *. rewrite m_star by (apply nonnull_consuming; reflexivity). rewrite HM. exact Hk.
  - inversion Hl as [|? ? Hl1 Hl2]; subst. pose proof Hl1 as (H1 & H2 & _). rewrite m_star by (apply nonnull_consuming; reflexivity).
    apply orelse_some. unfold r_more at 1, seqs. rewrite m_seq. unfold c1.
    unfold more_lines. cbn [flat_map]. fold (more_lines ls). cbn [app]. rewrite m_chr. change (10 =? 10) with true. cbv iota.
    unfold line_of. rewrite <- !app_assoc. destruct l as [[|d bs] tx]; cbn [fst snd] in *; [congruence|].
    cbn [forallb] in H1. apply andb_true_iff in H1 as [Hd H1].
    rewrite m_seq, star_zero.
    2:{ cbn [app stop]. unfold bullet in Hd. destruct (N.eqb_spec d 32) as [->|]; [discriminate|]. destruct (N.eqb_spec d 9) as [->|]; [discriminate|reflexivity]. }
    unfold RPlus. rewrite m_seq, m_seq. cbn [app]. rewrite m_chr. change (is_bullet d) with (bullet d). rewrite Hd.
    apply star_take; [exact H1|reflexivity|]. rewrite m_seq.
    apply (line_rest ls T ((d :: bs), tx)); [exact Hl1|exact HT|]. cbn [snd].
    apply IH; [exact Hl2|exact HT|exact HM|].
    unfold more_lines in Hk. cbn [flat_map] in Hk. fold (more_lines ls) in Hk. unfold line_of in Hk. cbn [fst snd] in Hk.
    revert Hk. repeat (rewrite ?rev_app_distr, <- ?app_assoc; cbn [rev app]). intro Hk. exact Hk.
Qed.
Definition list_text (l : list_line) (ls : list list_line) : str := line_of l ++ more_lines ls.
Lemma list_hit_any : forall p l ls T b k r, lead p -> bol b = true -> List.length (fst l) = 1%nat -> list_line_ok l -> Forall list_line_ok ls -> tail T = true -> no_more T ->
  k (mk (rev (p ++ list_text l ls) ++ b) T [(G_list, p ++ list_text l ls)]) = Some r ->
  m r_list (mk b ((p ++ list_text l ls) ++ T) []) k = Some r.
Proof.
  intros p l ls T b k r Hp Hb Hlen Hl Hls HT HM Hk. unfold r_list. rewrite m_grp. unfold seqs at 1. rewrite m_seq, m_bol, Hb, m_seq.
  destruct l as [[|d [|]] tx]; try discriminate. pose proof Hl as (H1 & _). cbn [fst forallb] in H1. rewrite andb_true_r in H1.
  unfold list_text, line_of. cbn [fst snd]. rewrite <- !app_assoc. cbn [app].
  assert (Hsp : is_space d = false).
  { unfold bullet in H1. apply orb_true_iff in H1 as [H|H]; apply N.eqb_eq in H; subst d; reflexivity. }
  unfold sps, sp. apply star_take; [apply lead_space; exact Hp|exact Hsp|]. rewrite m_seq, m_alt, !m_seq. unfold c1. rewrite !m_chr.
  assert (G : m (RChr (fun c => negb (is_bullet c))) (mk (d :: rev p ++ b) (32 :: tx ++ more_lines ls ++ T) [])
    (fun s' => m (RSeq (RStar true dot) (RSeq REol (RStar true r_more))) s'
      (fun s'0 => k (mk (bef s'0) (rest s'0) ((G_list, firstn (List.length (p ++ d :: 32 :: tx ++ more_lines ls ++ T) - List.length (rest s'0))
         (p ++ d :: 32 :: tx ++ more_lines ls ++ T)) :: caps s'0)))) = Some r).
  { rewrite m_chr. change (negb (is_bullet 32)) with true. cbv iota. rewrite m_seq.
    destruct Hl as (_ & _ & H3 & H4). cbn [snd] in *.
    unfold dot. apply star_take; [apply dots; exact H4|apply tail_stop, more_tail; exact HT|].
    rewrite m_seq, m_eol, tail_eol by (apply more_tail; exact HT). apply more_hit_any; [exact Hls|exact HT|exact HM|].
    cbn [bef rest caps].
    replace (p ++ d :: 32 :: tx ++ more_lines ls ++ T) with ((p ++ list_text ([d], tx) ls) ++ T)
      by (unfold list_text, line_of; cbn [fst snd]; rewrite <- !app_assoc; reflexivity).
    rewrite firstn_grp. rewrite <- Hk. f_equal. f_equal.
    unfold list_text, line_of. cbn [fst snd]. repeat (rewrite ?rev_app_distr, <- ?app_assoc; cbn [rev app]). reflexivity. }
  unfold bullet in H1. rewrite !(N.eqb_sym _ d).
  destruct (d =? 42) eqn:E1; [apply orelse_some; exact G|]. cbn [orb] in H1. rewrite H1. cbn [orelse]. exact G.
Qed.
Lemma list_hit : forall p l ls T b k r, lead p -> bol b = true -> List.length (fst l) = 1%nat -> list_line_ok l -> Forall list_line_ok ls -> tail2 T = true ->
  k (mk (rev (p ++ list_text l ls) ++ b) T [(G_list, p ++ list_text l ls)]) = Some r ->
  m r_list (mk b ((p ++ list_text l ls) ++ T) []) k = Some r.
Proof. intros. apply list_hit_any; try assumption; [apply tail2_tail|apply tail2_no_more]; assumption. Qed.

(** the items of a list *)
Definition item_caps (l : list_line) : list (gname * str) := [(G_item, line_of l); (G_item_text, snd l); (G_item_head, fst l)].
Lemma item_hit : forall p l ls b, lead p -> bol b = true -> list_line_ok l -> Forall list_line_ok ls ->
  m item_re (mk b ((p ++ line_of l) ++ more_lines ls) []) fin = Some (mk (rev (p ++ line_of l) ++ b) (more_lines ls) (item_caps l)).
Proof.
  intros p l ls b Hp Hb Hl Hls. destruct l as [[|d bs] tx]; [destruct Hl as (_ & H & _); cbn in H; congruence|].
  destruct Hl as (H1 & _ & H3 & H4). cbn [fst snd] in *. unfold trimmed in H3. rewrite !andb_true_iff, !negb_true_iff in H3. destruct H3 as [[H6 H7] H8].
  cbn [forallb] in H1. apply andb_true_iff in H1 as [Hd H1].
  assert (Hsp : is_space d = false).
  { unfold bullet in Hd. apply orb_true_iff in Hd as [H|H]; apply N.eqb_eq in H; subst d; reflexivity. }
  unfold item_re, seqs. rewrite m_seq, m_bol, Hb, m_seq. unfold line_of. cbn [fst snd]. rewrite <- !app_assoc. cbn [app].
  unfold sps, sp. apply star_take; [apply lead_space; exact Hp|exact Hsp|]. rewrite m_seq, m_grp, m_seq, m_grp. unfold RPlus. rewrite m_seq, m_chr.
  change (is_bullet d) with (bullet d). rewrite Hd. apply star_take; [exact H1|reflexivity|]. cbn [bef rest caps]. rewrite m_seq.
  change (32 :: tx ++ more_lines ls) with ([32] ++ tx ++ more_lines ls).
  apply star_take; [reflexivity| |].
  { destruct tx as [|c tx]; [discriminate|exact H6]. }
  unfold dotstar_lazy, dot. apply star_lazy_grp; [apply dots; exact H4| |].
  - cbn [bef rest caps]. rewrite m_seq.
    change (more_lines ls) with ([] ++ more_lines ls) at 1.
    apply star_back; [reflexivity| |].
    + cbn [rev app]. rewrite m_eol, tail_eol by (destruct ls; reflexivity). unfold fin, item_caps. cbn [fst snd]. f_equal. f_equal.
      * repeat (rewrite ?rev_app_distr, <- ?app_assoc; cbn [rev app]). reflexivity.
      * f_equal; [|f_equal; f_equal; f_equal; exact (firstn_grp (d :: bs) _)].
        f_equal. match goal with |- firstn _ ?l = ?w => replace l with (w ++ more_lines ls) by (unfold line_of; cbn [fst snd app]; repeat (rewrite <- app_assoc; cbn [app]); reflexivity) end.
        apply firstn_grp.
    + intros z y' E Hne Hz. rewrite m_eol. destruct z as [|c z]; [congruence|]. destruct ls as [|l2 ls]; [discriminate|].
      inversion Hls as [|? ? Hl2 _]; subst. destruct l2 as [[|d2 bs2] tx2]; destruct Hl2 as (G1 & G2 & _); cbn [fst] in *; [congruence|].
      cbn [forallb] in G1. apply andb_true_iff in G1 as [G1 _].
      unfold more_lines in E. cbn [flat_map app] in E. unfold line_of at 1 in E. cbn [fst snd app] in E. injection E as <- E.
      cbn [forallb] in Hz. apply andb_true_iff in Hz as [_ Hz]. 
      assert (Hsp2 : is_space d2 = false /\ (d2 =? 10) = false).
      { unfold bullet in G1. apply orb_true_iff in G1 as [H|H]; apply N.eqb_eq in H; subst d2; split; reflexivity. }
      destruct Hsp2 as [Q1 Q2]. destruct z as [|e z].
      * cbn [app] in E. subst y'. cbn [eol]. rewrite Q2. reflexivity.
      * cbn [app] in E. injection E as <- E. cbn [forallb] in Hz. rewrite Q1 in Hz. discriminate.
  - intros x1 x2 -> Hx2. cbn [bef rest caps]. rewrite m_seq. apply star_none. intros z y Ez Hz. rewrite m_eol.
    rewrite last_is_suffix in H7 by exact Hx2.
    destruct (spaces_inside _ _ _ _ Hx2 H7 Ez Hz) as (e & x3 & -> & z' & E). cbn [eol].
    rewrite (no_nl [10; 13] (x1 ++ x2) e (x1 ++ z') x3); [reflexivity|left; reflexivity|exact H4|rewrite E, app_assoc; reflexivity].
Qed.
Lemma item_no : forall b t, bol b = false -> m item_re (mk b t []) fin = None.
Proof. intros b t H. unfold item_re, seqs. rewrite m_seq, m_bol, H. reflexivity. Qed.
Definition mts (l : list (char + mtch)) : list mtch := flat_map (fun x => match x with Datatypes.inl _ => [] | inr y => [y] end) l.
Definition item_ms (p : str) (l : list_line) : mtch := mkm (p ++ line_of l) (item_caps l).
Lemma line_bol : forall l b, list_line_ok l -> bol (rev (line_of l) ++ b) = false.
Proof.
  intros [bs tx] b (_ & _ & H3 & H4). unfold line_of. cbn [fst snd] in *. unfold trimmed in H3. rewrite !andb_true_iff in H3. destruct H3 as [_ H3].
  destruct (exists_last (l := tx)) as (v & d & ->); [intros ->; discriminate|].
  repeat (rewrite ?rev_app_distr, <- ?app_assoc; cbn [rev app]). cbn [bol]. eapply (no_nl [10; 13]); [left; reflexivity|exact H4|reflexivity].
Qed.
Lemma items_scan : forall ls p l b, lead p -> bol b = true -> list_line_ok l -> Forall list_line_ok ls ->
  mts (scan item_re 0 b ((p ++ line_of l) ++ more_lines ls)) = item_ms p l :: map (item_ms []) ls.
Proof.
  induction ls as [|l2 ls IH]; intros p l b Hp Hb Hl Hls.
  - rewrite (scan_hit _ _ (p ++ line_of l) (more_lines []) (item_caps l)).
    + cbn [mts flat_map app map]. fold (item_ms p l). unfold more_lines. cbn [flat_map]. rewrite scan_end, at_pos_miss; [reflexivity|].
      apply item_no. rewrite rev_app_distr, <- app_assoc. apply line_bol. exact Hl.
    + destruct l as [[|d bs] tx]; [destruct Hl as (_ & H & _); cbn in H; congruence|]. destruct p; discriminate.
    + apply item_hit; assumption.
  - rewrite (scan_hit _ _ (p ++ line_of l) (more_lines (l2 :: ls)) (item_caps l)).
    + cbn [mts flat_map app map]. fold (item_ms p l). f_equal. inversion Hls as [|? ? Hl2 Hls2]; subst.
      unfold more_lines. cbn [flat_map app]. fold (more_lines ls).
      rewrite scan_miss.
      * cbn [flat_map app]. apply (IH [] l2); [left; reflexivity|reflexivity|exact Hl2|exact Hls2].
      * apply item_no. rewrite rev_app_distr, <- app_assoc. apply line_bol. exact Hl.
    + destruct l as [[|d bs] tx]; [destruct Hl as (_ & H & _); cbn in H; congruence|]. destruct p; discriminate.
    + apply item_hit; assumption.
Qed.
