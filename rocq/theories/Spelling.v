(** * html in any spelling is read alike *)
From Coq Require Import String List Arith NArith ZArith Bool Lia.
From Verif Require Import PyStr PyStrFacts GNames Regex RegexFacts RegexRun Rules Utils Res Entities HtmlTools HtmlToolsFacts HtmlTok HtmlTokFacts.
From Verif Require Import HtmlParser Safety Spec2 TreeFacts Spec10 TokRun TagTok StripRun Spec11 CleanRun CleanDoc Spec41 Coded Spec29.
Import ListNotations.
Open Scope N_scope.

(** ** attributes *)
Lemma lower_cased : forall n n', forallb name_char n = true -> cased n n' -> lower n' = n.
Proof.
  intros n n' H C. induction C as [|c d n n' E C IH]; [reflexivity|]. cbn [forallb] in H. apply andb_true_iff in H as [H1 H2]. unfold lower in *. cbn [map]. rewrite (IH H2). f_equal.
  destruct E as [->|(L1 & L2)]; unfold lower_c.
  - apply name_char_range in H1. cls.
  - apply lower_letter_range in L1. subst c. cls.
Qed.
Lemma cased_name : forall n n', name_ok n = true -> cased n n' -> cname n' = true.
Proof.
  intros n n' H C. destruct C as [|c d n n' E C]; [discriminate|]. cbn [name_ok] in H. apply andb_true_iff in H as [H1 H2]. cbn [cname]. apply andb_true_iff. split.
  - destruct E as [->|(L1 & L2)]; unfold letter; [rewrite H1; reflexivity|]. apply lower_letter_range in L1. unfold lower_letter. cls.
  - clear - C H2. induction C as [|c d n n' E C IH]; [reflexivity|]. cbn [forallb] in *. apply andb_true_iff in H2 as [H2 H3]. rewrite (IH H3), andb_true_r.
    destruct E as [->|(L1 & L2)].
    + apply name_char_range in H2. unfold cchar, letter, lower_letter, dec. cls.
    + apply lower_letter_range in L1. unfold cchar, letter, lower_letter, dec. cls.
Qed.
Lemma in_entities : forall q v, In q (flat_map attr_entity v) -> q = 34 \/ q = 39 -> q = 39 /\ In 39 v.
Proof.
  intros q v I Q. apply in_flat_map in I as (c & Ic & I). unfold attr_entity in I.
  destruct (c =? 38); [cbv in I; destruct Q; subst q; intuition discriminate|]. destruct (c =? 60); [cbv in I; destruct Q; subst q; intuition discriminate|].
  destruct (c =? 62); [cbv in I; destruct Q; subst q; intuition discriminate|]. destruct (c =? 34) eqn:E; [cbv in I; destruct Q; subst q; intuition discriminate|].
  destruct I as [I|[]]. subst c. destruct Q as [->| ->]; [discriminate|]. auto.
Qed.
Lemma bare_parts : forall v, bare v = true -> exists c r, v = c :: r /\ c <> 61 /\ forallb bare_char v = true /\ last v 0 <> 47.
Proof.
  intros v H. unfold bare in H. rewrite !andb_true_iff in H. destruct H as [[H1 H2] H3]. destruct v as [|c r]; [discriminate|].
  exists c, r. apply negb_true_iff in H1, H3. split; [reflexivity|]. split; [apply N.eqb_neq; exact H1|]. split; [exact H2|apply N.eqb_neq; exact H3].
Qed.
Lemma bare_char_parts : forall c, bare_char c = true -> is_space c = false /\ c <> 34 /\ c <> 38 /\ c <> 39 /\ c <> 60 /\ c <> 62.
Proof.
  intros c H. unfold bare_char in H. apply negb_true_iff in H. apply orb_false_iff in H as [H1 H2]. cbn [existsb] in H2.
  split; [exact H1|]. repeat split; intro E; subst c; discriminate H2.
Qed.
Lemma value_read : forall v w, value_written v w -> unescape (val_read w) = v /\
  (forall y, (bare v = true -> w = v -> stop bare_c y) -> val_ok y w).
Proof.
  intros v w [|N|B|u C Q|u C Q].
  - split; [cbn [app L val_read]; change (is_quote 34) with true; cbv iota; change ($ """") with [34]; rewrite removelast_last; apply unescape_entity|].
    intros y _. apply (val_double y). intro I. apply in_entities in I as [I _]; [discriminate I|auto].
  - split; [cbn [app L val_read]; change (is_quote 39) with true; cbv iota; change ($ "'") with [39]; rewrite removelast_last; apply unescape_entity|].
    intros y _. apply (val_single y). intro I. apply in_entities in I as [_ I]; [exact (N I)|auto].
  - destruct (bare_parts v B) as (c & r & -> & H1 & H2 & H3). assert (Q : is_quote c = false).
    { cbn [forallb] in H2. apply andb_true_iff in H2 as [H2 _]. apply bare_char_parts in H2. unfold is_quote. cls. }
    split.
    + unfold val_read. rewrite Q. unfold unescape. replace (contains [38] (c :: r)) with false; [reflexivity|]. symmetry.
      clear - H2. revert H2. generalize (c :: r). intro s. induction s as [|x s IH]; intro H; [reflexivity|]. cbn [forallb] in H. apply andb_true_iff in H as [Hx H].
      apply bare_char_parts in Hx. cbn [contains startswith]. apply orb_false_iff. split; [|apply IH; exact H]. rewrite andb_true_r. apply N.eqb_neq. intro E. symmetry in E. tauto.
    + intros y Y. apply val_bare; [exact Q|exact H1| |exact (Y B eq_refl)]. eapply forallb_impl; [|exact H2]. intros x Hx. apply bare_char_parts in Hx. destruct Hx as (X1 & X2).
      unfold bare_c. rewrite X1, orb_false_r. apply negb_true_iff, N.eqb_neq. tauto.
  - split; [cbn [app L val_read]; change (is_quote 34) with true; cbv iota; change ($ """") with [34]; rewrite removelast_last; apply unescape_coded; exact C|].
    intros y _. apply (val_double y). exact Q.
  - split; [cbn [app L val_read]; change (is_quote 39) with true; cbv iota; change ($ "'") with [39]; rewrite removelast_last; apply unescape_coded; exact C|].
    intros y _. apply (val_single y). exact Q.
Qed.
Lemma no_quote_end : forall (a w b : str) v, value_written v w -> bare v = true -> w = v -> ~ ends_quoted (a ++ w).
Proof.
  intros a w b v V B E (u & Q). subst w. destruct (bare_parts v B) as (c & r & Ev & _ & H & _).
  destruct (exists_last (l := v)) as (x & z & Ez); [rewrite Ev; discriminate|]. rewrite Ez, forallb_app in H. apply andb_true_iff in H as [_ H]. cbn [forallb] in H. apply andb_true_iff in H as [H _].
  apply bare_char_parts in H. rewrite Ez in Q. rewrite app_assoc in Q. destruct Q as [Q|Q]; apply app_inj_tail in Q as [_ Q]; subst z; tauto.
Qed.
Lemma written_items : forall a s, attrs_written a s -> forallb attr_ok a = true -> forall (self : bool) j, (self = true -> j = 0%nat -> a = [] \/ ends_quoted s) ->
  exists g l, s ++ repeat 32 j = repeat 32 g ++ isrcs l /\ items_ok l self /\ map i_read l = a /\ (l <> [] -> g <> 0%nat) /\ (l = [] -> g = j).
Proof.
  intros a s W. induction W as [|nv a s t W1 W2 IH]; intros A self j Q.
  - exists j, []. cbn [isrcs flat_map app map items_ok]. rewrite app_nil_r. repeat split; congruence.
  - cbn [forallb] in A. apply andb_true_iff in A as [A1 A2]. destruct W1 as (i & n & jj & k & w & -> & C & V).
    destruct (IH A2 self j) as (g & l & E & I & R & G1 & G2).
    { intros H1 H2. destruct a as [|nv' a]; [left; reflexivity|right]. destruct (Q H1 H2) as [?|(u & Qu)]; [discriminate|].
      inversion W2 as [|nv0 a0 s0 t0 W3 W4]; subst. destruct W3 as (i' & n' & jj' & k' & w' & -> & _ & V').
      destruct (exists_last (l := (gap (S i') ++ n' ++ gap jj' ++ $ "=" ++ gap k' ++ w') ++ t0)) as (x & z & Ez); [discriminate|].
      rewrite Ez in *. rewrite app_assoc in Qu. exists x. destruct Qu as [Qu|Qu]; apply app_inj_tail in Qu as [_ ->]; auto. }
    unfold attr_ok in A1. apply andb_true_iff in A1 as [A1 A3]. destruct nv as [m v]. cbn [fst snd] in *. destruct v as [v| | |]; try discriminate. cbn [value_of] in *.
    destruct (value_read v w V) as [V1 V2].
    exists (S i), (mki n jj k w g :: l). split; [|split; [|split; [|split]]].
    + rewrite <- app_assoc, E. cbn [isrcs flat_map]. unfold i_src, i_core. cbn [i_name i_before i_after i_val i_gap]. unfold gap. cbn [app L].
      rewrite <- ?app_assoc; cbn [app]; rewrite <- ?app_assoc; cbn [app]; rewrite <- ?app_assoc. reflexivity.
    + cbn [items_ok i_name i_val i_gap]. split; [eapply cased_name; eassumption|]. split; [exact G1|]. split; [|exact I].
      intro y. apply V2. intros B Ev. destruct g as [|g]; [|reflexivity]. destruct l as [|x l]; [|exfalso; apply G1; [discriminate|reflexivity]].
      cbn [repeat app isrcs flat_map]. destruct self; [|reflexivity]. exfalso. specialize (G2 eq_refl). destruct (Q eq_refl (eq_sym G2)) as [?|Qu]; [discriminate|].
      destruct a as [|nv' a]; [|discriminate R]. assert (Et : t = []) by (inversion W2; reflexivity). subst t w. rewrite app_nil_r in Qu.
      replace (gap (S i) ++ n ++ gap jj ++ $ "=" ++ gap k ++ v) with ((gap (S i) ++ n ++ gap jj ++ $ "=" ++ gap k) ++ v) in Qu by (rewrite <- !app_assoc; reflexivity).
      exact (no_quote_end _ v [] v V B eq_refl Qu).
    + cbn [map]. rewrite R. unfold i_read at 1. cbn [i_name i_val]. rewrite V1, (lower_cased m n); [reflexivity| |exact C]. apply name_ok_chars in A1. tauto.
    + discriminate.
    + discriminate.
Qed.

(** ** pieces of html and their spellings *)
Definition toklike (a b : tok) : Prop := a = b \/ exists x, (a = TStart ($ "br") x \/ a = TStartEnd ($ "br") x) /\ (b = TStart ($ "br") x \/ b = TStartEnd ($ "br") x).
Lemma toklike_refl : forall l, Forall2 toklike l l.
Proof. induction l; constructor; [left; reflexivity|assumption]. Qed.
Definition no60 (s : str) : bool := forallb (fun c => negb (c =? 60)) s.
Record tag_like (c : bool) (n a n' a' : str) : Prop := {
  tl_fine : tag_fine c n a; tl_fine' : tag_fine c n' a';
  tl_nonl : nonl (n ++ a) = true; tl_nonl' : nonl (n' ++ a') = true;
  tl_blk : blk n' = blk n;
  tl_slash : blk n = false -> endswith [47] a' = endswith [47] a;
  tl_60 : no60 (n' ++ a') = true; tl_pre : n' <> $ "pre";
  tl_tok : exists ts ts' cd, Forall2 toklike ts ts' /\ (forall y, one None (tag_src c n a ++ y) = Next ts y cd) /\ (forall y, one None (tag_src c n' a' ++ y) = Next ts' y cd) }.
Inductive like : pc -> pc -> Prop :=
| like_ch c : c <> 60 -> like (Ch c) (Ch c)
| like_tg c n a n' a' : tag_like c n a n' a' -> like (Tg c n a) (Tg c n' a').
Lemma like_fine : forall l l', Forall2 like l l' -> Forall pc_fine l /\ Forall pc_fine l'.
Proof.
  intros l l' H. induction H as [|x y l l' [c Hc|c n a n' a' T] _ [I1 I2]]; [split; constructor| |].
  - split; constructor; assumption.
  - destruct T. split; constructor; assumption.
Qed.
Lemma like_chars : forall w : str, no60 w = true -> Forall2 like (map Ch w) (map Ch w).
Proof.
  induction w as [|c w IH]; intro H; [constructor|]. unfold no60 in H. cbn [forallb] in H. apply andb_true_iff in H as [Hc H]. constructor; [|apply IH; exact H].
  constructor. apply negb_true_iff in Hc. apply N.eqb_neq. exact Hc.
Qed.
Lemma space60 : forall w : str, forallb is_space w = true -> no60 w = true.
Proof. intros w H. eapply forallb_impl; [|exact H]. intros c Hc. destruct (N.eqb_spec c 60); [subst c; discriminate Hc|reflexivity]. Qed.
Lemma conv_space : forall w : str, forallb is_space w = true -> forallb is_space (conv w) = true.
Proof. intros w H. unfold conv. destruct (existsb (N.eqb 10) w); [apply gap_space|exact H]. Qed.

(** squash on pieces *)
Fixpoint sqp (seen : bool) (p : str) (ps : list pc) : list pc :=
  match ps with
  | [] => []
  | Ch c :: r => if is_space c then sqp seen (p ++ [c]) r else map Ch (if seen then conv p else []) ++ Ch c :: sqp true [] r
  | Tg c n a :: r => map Ch (if seen then conv p else []) ++ Tg c n a :: sqp true [] r
  end.
Definition tag_nonl (x : pc) : Prop := match x with Ch _ => True | Tg c n a => nonl (n ++ a) = true end.
Lemma squash_tag : forall seen (p : str) c n a (r : str), nonl (n ++ a) = true ->
  squash seen p (tag_src c n a ++ r) = (if seen then conv p else []) ++ tag_src c n a ++ squash true [] r.
Proof.
  intros seen p c n a r H. unfold tag_src.
  replace ((60 :: (if c then [47] else []) ++ n ++ a ++ [62]) ++ r) with (60 :: ((if c then [47] else []) ++ n ++ a) ++ 62 :: r)
    by (cbn [app]; rewrite <- !app_assoc; reflexivity).
  rewrite squash_solid; [|reflexivity| |reflexivity].
  - cbn [app]. rewrite <- !app_assoc. reflexivity.
  - rewrite nonl_app, H, andb_true_r. destruct c; reflexivity.
Qed.
Lemma squash_pcs : forall ps seen p, Forall tag_nonl ps -> squash seen p (pcs_src ps) = pcs_src (sqp seen p ps).
Proof.
  induction ps as [|x ps IH]; intros seen p H; [reflexivity|]. inversion_clear H as [|? ? H1 H2]. destruct x as [c|c n a]; cbn [sqp].
  - change (pcs_src (Ch c :: ps)) with (c :: pcs_src ps). cbn [squash]. destruct (is_space c); [apply IH; exact H2|]. rewrite pcs_app, chars_src, IH by exact H2. reflexivity.
  - change (pcs_src (Tg c n a :: ps)) with (tag_src c n a ++ pcs_src ps). rewrite squash_tag by exact H1. rewrite pcs_app, chars_src, IH by exact H2. reflexivity.
Qed.
Lemma sqp_like : forall ps ps' seen p, Forall2 like ps ps' -> forallb is_space p = true -> Forall2 like (sqp seen p ps) (sqp seen p ps').
Proof.
  intros ps ps' seen p H. revert seen p. induction H as [|x y l l' [c Hc|c n a n' a' T] _ IH]; intros seen p P; [constructor| |]; cbn [sqp].
  - destruct (is_space c) eqn:E.
    + apply IH. rewrite forallb_app. apply andb_true_iff. split; [exact P|]. cbn [forallb]. rewrite E. reflexivity.
    + apply Forall2_app; [|constructor; [constructor; exact Hc|apply IH; reflexivity]]. destruct seen; [|constructor]. apply like_chars, space60, conv_space, P.
  - apply Forall2_app; [|constructor; [constructor; exact T|apply IH; reflexivity]]. destruct seen; [|constructor]. apply like_chars, space60, conv_space, P.
Qed.

(** squeeze on pieces *)
Definition tag_outp (p : str) (close : bool) (name more l : str) : list pc :=
  let t := [Tg close name more] in
  let s1 := startswith [32] p in let s2 := endswith [32] l in
  if in_list BLOCK_TAGS name then t
  else if close then (if s1 || s2 then t ++ [Ch 32] else t)
  else if endswith [47] more then (if s2 then (if s1 then Ch 32 :: t else t) ++ [Ch 32] else if s1 then Ch 32 :: t else t)
  else (if s1 || s2 then Ch 32 :: t else t).
Definition flushp (st : sst) : list pc := match st with Run p => map Ch p | Tagged p c n a l => tag_outp p c n a l end.
Fixpoint szp (st : sst) (ps : list pc) : list pc :=
  match ps with
  | [] => flushp st
  | Ch c :: r =>
    if is_space c then szp (match st with Run p => Run (p ++ [c]) | Tagged p cl n a l => Tagged p cl n a (l ++ [c]) end) r
    else flushp st ++ Ch c :: szp (Run []) r
  | Tg cl n a :: r =>
    match st with
    | Run p => szp (Tagged p cl n a []) r
    | Tagged _ _ _ _ _ => flushp st ++ szp (Tagged [] cl n a []) r
    end
  end.
Lemma one_pc : forall c n a, pcs_src [Tg c n a] = tag_src c n a.
Proof. intros. unfold pcs_src. cbn [flat_map pc_src]. apply app_nil_r. Qed.
Lemma flush_pcs : forall st, flush st = pcs_src (flushp st).
Proof.
  intros [p|p c n a l]; cbn [flush flushp]; [symmetry; apply chars_src|]. unfold tag_out, tag_outp. cbv zeta.
  destruct (in_list BLOCK_TAGS n); [symmetry; apply one_pc|]. destruct c.
  - destruct (startswith [32] p || endswith [32] l); rewrite ?pcs_app, one_pc; reflexivity.
  - assert (E : pcs_src (Ch 32 :: [Tg false n a]) = 32 :: tag_src false n a) by (change (Ch 32 :: [Tg false n a]) with ([Ch 32] ++ [Tg false n a]); rewrite pcs_app, one_pc; reflexivity).
    destruct (endswith [47] a), (endswith [32] l), (startswith [32] p); cbn [orb]; rewrite ?pcs_app, ?E, ?one_pc; reflexivity.
Qed.
Lemma squeeze_pcs : forall ps st, squeeze st ps = pcs_src (szp st ps).
Proof.
  induction ps as [|x ps IH]; intro st; [apply flush_pcs|]. destruct x as [c|c n a]; cbn [squeeze szp].
  - destruct (is_space c); [apply IH|]. rewrite pcs_app, flush_pcs, IH. reflexivity.
  - destruct st as [p|p c' n' a' l]; [apply IH|]. rewrite pcs_app, flush_pcs, IH. reflexivity.
Qed.
Inductive st_like : sst -> sst -> Prop :=
| sl_run p : forallb is_space p = true -> st_like (Run p) (Run p)
| sl_tagged p c n a n' a' l : tag_like c n a n' a' -> st_like (Tagged p c n a l) (Tagged p c n' a' l).
Lemma flush_like : forall s s', st_like s s' -> Forall2 like (flushp s) (flushp s').
Proof.
  intros s s' [p P|p c n a n' a' l T]; cbn [flushp]; [apply like_chars, space60, P|].
  unfold tag_outp. cbv zeta. pose proof (tl_blk _ _ _ _ _ T) as B. pose proof (tl_slash _ _ _ _ _ T) as E. unfold blk in B, E. rewrite B.
  assert (S : like (Ch 32) (Ch 32)) by (constructor; discriminate). assert (TT : like (Tg c n a) (Tg c n' a')) by (constructor; exact T).
  destruct (in_list BLOCK_TAGS n); [constructor; [exact TT|constructor]|]. rewrite (E eq_refl).
  destruct c, (endswith [47] a), (endswith [32] l), (startswith [32] p); cbn [orb app]; repeat (apply Forall2_cons; [assumption|]); apply Forall2_nil.
Qed.
Lemma szp_like : forall ps ps' s s', Forall2 like ps ps' -> st_like s s' -> Forall2 like (szp s ps) (szp s' ps').
Proof.
  intros ps ps' s s' H. revert s s'. induction H as [|x y l l' [c Hc|c n a n' a' T] _ IH]; intros s s' L; cbn [szp]; [apply flush_like; exact L| |].
  - destruct (is_space c) eqn:E.
    + apply IH. destruct L as [p P|p c0 n a n' a' l0 T]; constructor; [|exact T]. rewrite forallb_app. apply andb_true_iff. split; [exact P|]. cbn [forallb]. rewrite E. reflexivity.
    + apply Forall2_app; [apply flush_like; exact L|]. constructor; [constructor; exact Hc|]. apply IH. constructor. reflexivity.
  - destruct L as [p P|p c0 n0 a0 n0' a0' l0 T0].
    + apply IH. constructor. exact T.
    + apply Forall2_app; [apply (flush_like _ _ (sl_tagged p c0 n0 a0 n0' a0' l0 T0))|]. apply IH. constructor. exact T.
Qed.
Lemma like_nonl : forall l l', Forall2 like l l' -> Forall tag_nonl l /\ Forall tag_nonl l'.
Proof.
  intros l l' H. induction H as [|x y l l' [c Hc|c n a n' a' T] _ [I1 I2]]; [split; constructor| |].
  - split; constructor; try assumption; exact I.
  - destruct T. split; constructor; assumption.
Qed.
Theorem strip_like : forall ps ps', Forall2 like ps ps' -> exists rs rs', strip_html (pcs_src ps) = pcs_src rs /\ strip_html (pcs_src ps') = pcs_src rs' /\ Forall2 like rs rs'.
Proof.
  intros ps ps' H. pose proof (sqp_like ps ps' false [] H eq_refl) as Q. pose proof (like_fine _ _ Q) as [F F']. pose proof (like_nonl _ _ H) as [N N'].
  exists (szp (Run []) (sqp false [] ps)), (szp (Run []) (sqp false [] ps')).
  assert (K : forall l, Forall pc_fine l -> rsub [] (pcs_src l) = squeeze (Run []) l).
  { intros l HF. change (pcs_src l) with (held (Run []) ++ pcs_src l). apply rsub_squeeze; [exact HF|reflexivity]. }
  rewrite !strip_html_eq, !squash_pcs by assumption. rewrite !K by assumption. rewrite !squeeze_pcs. split; [reflexivity|]. split; [reflexivity|].
  apply szp_like; [exact Q|constructor; reflexivity].
Qed.

(** ** a text has one decomposition into pieces *)
Lemma name_split : forall (n1 n2 u1 u2 : str), forallb (fun c => negb ((c =? 32) || (c =? 62))) n1 = true -> forallb (fun c => negb ((c =? 32) || (c =? 62))) n2 = true ->
  (exists c t, u1 = c :: t /\ (c = 32 \/ c = 62)) -> (exists c t, u2 = c :: t /\ (c = 32 \/ c = 62)) -> n1 ++ u1 = n2 ++ u2 -> n1 = n2 /\ u1 = u2.
Proof.
  induction n1 as [|x n1 IH]; intros n2 u1 u2 H1 H2 U1 U2 E.
  - destruct n2 as [|y n2]; [auto|]. destruct U1 as (c & t & -> & Hc). cbn [app] in E. injection E as -> E. cbn [forallb] in H2. apply andb_true_iff in H2 as [H2 _].
    destruct Hc as [->| ->]; discriminate H2.
  - cbn [forallb] in H1. apply andb_true_iff in H1 as [Hx H1]. destruct n2 as [|y n2].
    + destruct U2 as (c & t & -> & Hc). cbn [app] in E. injection E as -> E. destruct Hc as [->| ->]; discriminate Hx.
    + cbn [app] in E. injection E as -> E. cbn [forallb] in H2. apply andb_true_iff in H2 as [_ H2]. destruct (IH n2 u1 u2 H1 H2 U1 U2 E) as [-> ->]. auto.
Qed.
Lemma more_split : forall (a1 a2 u1 u2 : str), forallb (fun c => negb ((c =? 10) || (c =? 62))) a1 = true -> forallb (fun c => negb ((c =? 10) || (c =? 62))) a2 = true ->
  a1 ++ 62 :: u1 = a2 ++ 62 :: u2 -> a1 = a2 /\ u1 = u2.
Proof.
  induction a1 as [|x a1 IH]; intros a2 u1 u2 H1 H2 E; destruct a2 as [|y a2]; cbn [app] in E.
  - injection E as E. auto.
  - injection E as <- E. cbn [forallb] in H2. apply andb_true_iff in H2 as [H2 _]. discriminate H2.
  - injection E as -> E. cbn [forallb] in H1. apply andb_true_iff in H1 as [H1 _]. discriminate H1.
  - injection E as -> E. cbn [forallb] in H1, H2. apply andb_true_iff in H1 as [_ H1]. apply andb_true_iff in H2 as [_ H2]. destruct (IH a2 u1 u2 H1 H2 E) as [-> ->]. auto.
Qed.
Lemma tag_inj : forall c1 n1 a1 c2 n2 a2 u1 u2, tag_fine c1 n1 a1 -> tag_fine c2 n2 a2 -> tag_src c1 n1 a1 ++ u1 = tag_src c2 n2 a2 ++ u2 ->
  c1 = c2 /\ n1 = n2 /\ a1 = a2 /\ u1 = u2.
Proof.
  intros c1 n1 a1 c2 n2 a2 u1 u2 (N1 & C1 & S1 & M1 & R1) (N2 & C2 & S2 & M2 & R2) E. unfold tag_src in E. cbn [app] in E. injection E as E. rewrite <- !app_assoc in E. cbn [app] in E.
  assert (K : forall n1 n2 a1 a2, forallb (fun c => negb ((c =? 32) || (c =? 62))) n1 = true -> forallb (fun c => negb ((c =? 32) || (c =? 62))) n2 = true ->
    (a1 = [] \/ exists t, a1 = 32 :: t) -> (a2 = [] \/ exists t, a2 = 32 :: t) -> forallb (fun c => negb ((c =? 10) || (c =? 62))) a1 = true -> forallb (fun c => negb ((c =? 10) || (c =? 62))) a2 = true ->
    n1 ++ a1 ++ 62 :: u1 = n2 ++ a2 ++ 62 :: u2 -> n1 = n2 /\ a1 = a2 /\ u1 = u2).
  { clear. intros n1 n2 a1 a2 C1 C2 M1 M2 R1 R2 E. destruct (name_split n1 n2 (a1 ++ 62 :: u1) (a2 ++ 62 :: u2) C1 C2) as [-> E']; [| |exact E|].
    - destruct M1 as [->|(t & ->)]; eexists _, _; (split; [reflexivity|]); auto.
    - destruct M2 as [->|(t & ->)]; eexists _, _; (split; [reflexivity|]); auto.
    - destruct (more_split a1 a2 u1 u2 R1 R2 E') as [-> ->]. auto. }
  destruct c1, c2; cbn [app] in E.
  - injection E as E. destruct (K _ _ _ _ C1 C2 M1 M2 R1 R2 E) as (-> & -> & ->). auto.
  - exfalso. specialize (S2 eq_refl). destruct n2 as [|x n2]; [congruence|]. cbn [app] in E. injection E as <- E. discriminate S2.
  - exfalso. specialize (S1 eq_refl). destruct n1 as [|x n1]; [congruence|]. cbn [app] in E. injection E as -> E. discriminate S1.
  - destruct (K _ _ _ _ C1 C2 M1 M2 R1 R2 E) as (-> & -> & ->). auto.
Qed.
Lemma pcs_inj : forall l l', Forall pc_fine l -> Forall pc_fine l' -> pcs_src l = pcs_src l' -> l = l'.
Proof.
  induction l as [|x l IH]; intros l' F F' E.
  - destruct l' as [|[c|c n a] l']; [reflexivity|discriminate E|discriminate E].
  - inversion_clear F as [|? ? F1 F2]. destruct l' as [|y l']; [destruct x; discriminate E|]. inversion_clear F' as [|? ? F3 F4].
    change (pc_src x ++ pcs_src l = pc_src y ++ pcs_src l') in E. destruct x as [c|c n a], y as [d|d m b]; cbn [pc_src pc_fine] in *.
    + cbn [app] in E. injection E as -> E. f_equal. apply IH; assumption.
    + exfalso. cbn [app tag_src] in E. injection E as -> E. congruence.
    + exfalso. cbn [app tag_src] in E. injection E as <- E. congruence.
    + destruct (tag_inj c n a d m b _ _ F1 F3 E) as (-> & -> & -> & E'). f_equal. apply IH; assumption.
Qed.
