(** * strip_html on texts made of tags and characters *)
From Coq Require Import String List Arith NArith ZArith Bool Lia.
From Verif Require Import PyStr PyStrFacts GNames Regex RegexFacts RegexRun Rules Utils Res Entities HtmlTools HtmlToolsFacts HtmlTok TokRun.
Import ListNotations.
Open Scope N_scope.

(** ** the lines are joined *)
Definition lines_joined (s : str) : str := join [32] (map strip (split_on 10 s)).
Lemma joined_break : forall x y, lines_joined (x ++ 10 :: y) = lines_joined x ++ 32 :: lines_joined y.
Proof.
  unfold lines_joined. intros x y.
  assert (E : split_on 10 (x ++ 10 :: y) = split_on 10 x ++ split_on 10 y).
  { induction x as [|c x IH]; cbn [app split_on].
    - change (10 =? 10) with true. cbv iota. reflexivity.
    - destruct (c =? 10); [rewrite IH; reflexivity|]. rewrite IH. pose proof (split_on_nonempty 10 x). destruct (split_on 10 x); [congruence|]. reflexivity. }
  rewrite E, map_app.
  assert (J : forall l1 l2 : list str, l1 <> [] -> l2 <> [] -> join [32] (l1 ++ l2) = join [32] l1 ++ 32 :: join [32] l2).
  { induction l1 as [|a l1 IH]; intros l2 H1 H2; [congruence|]. destruct l1 as [|b l1].
    - cbn [app]. rewrite join_cons by exact H2. reflexivity.
    - change ((a :: b :: l1) ++ l2) with (a :: (b :: l1) ++ l2). rewrite join_cons by discriminate. rewrite IH by (try discriminate; assumption).
      rewrite (join_cons _ a (b :: l1)) by discriminate. rewrite <- !app_assoc. reflexivity. }
  apply J; intro H; apply map_eq_nil in H; eapply split_on_nonempty; exact H.
Qed.
Lemma joined_line : forall x, ~ In 10 x -> lines_joined x = strip x.
Proof.
  intros x H. unfold lines_joined. assert (E : split_on 10 x = [x]).
  { induction x as [|c x IH]; [reflexivity|]. cbn [split_on]. destruct (c =? 10) eqn:E; [apply N.eqb_eq in E; subst; exfalso; apply H; left; reflexivity|].
    rewrite IH; [reflexivity|]. intro I. apply H. right. exact I. }
  rewrite E. reflexivity.
Qed.
(** a run of white space between visible characters *)
Definition conv (p : str) : str := if existsb (N.eqb 10) p then repeat 32 (count_occ N.eq_dec p 10) else p.
Lemma joined_lead : forall (g b : str), forallb is_space g = true -> stop is_space b -> b <> [] ->
  lines_joined (g ++ b) = repeat 32 (count_occ N.eq_dec g 10) ++ lines_joined b.
Proof.
  induction g as [|c g IH]; intros b Hg Hb Hne; [reflexivity|]. cbn [forallb] in Hg. apply andb_true_iff in Hg as [Hc Hg].
  cbn [app]. destruct (N.eq_dec c 10) as [->|N].
  - change (10 :: g ++ b) with ([] ++ 10 :: (g ++ b)). rewrite joined_break, IH by assumption.
    rewrite count_occ_cons_eq by reflexivity. reflexivity.
  - rewrite count_occ_cons_neq by congruence. rewrite <- IH by assumption. unfold lines_joined. cbn [split_on].
    rewrite (proj2 (N.eqb_neq c 10)) by exact N. pose proof (split_on_nonempty 10 (g ++ b)). destruct (split_on 10 (g ++ b)) as [|h r]; [congruence|].
    cbn [map].
    assert (K : strip (c :: h) = strip h) by (unfold strip, strip_by, lstrip_by; cbn [drop_while]; rewrite Hc; reflexivity).
    apply (f_equal (fun x => join [32] (x :: map strip r)) K).
Qed.
Lemma strip_head : forall (c : N) (s : str), is_space c = false -> strip (c :: s) = c :: rstrip s.
Proof.
  intros c s H. unfold strip, strip_by, lstrip_by, rstrip. cbn [drop_while]. rewrite H. cbn [rstrip_by]. destruct (rstrip_by is_space s); [rewrite H|]; reflexivity.
Qed.
Lemma rstrip_skip : forall g s : str, stop is_space s -> s <> [] -> rstrip (g ++ s) = g ++ rstrip s.
Proof.
  induction g as [|c g IH]; intros s Hs Hne; [reflexivity|]. cbn [app]. unfold rstrip in *. cbn [rstrip_by]. rewrite IH by assumption.
  destruct s as [|d s]; [congruence|]. cbn [stop] in Hs. cbn [rstrip_by]. rewrite Hs. destruct (rstrip_by is_space s), g; reflexivity.
Qed.
Lemma joined_gap : forall (c : N) (g b : str), is_space c = false -> forallb is_space g = true -> stop is_space b -> b <> [] ->
  lines_joined (c :: g ++ b) = c :: conv g ++ lines_joined b.
Proof.
  intros c g b Hc Hg Hb Hne. unfold conv. destruct (existsb (N.eqb 10) g) eqn:E.
  - assert (S : exists g1 g2, g = g1 ++ 10 :: g2 /\ ~ In 10 g1).
    { clear Hg. induction g as [|d g IH]; [discriminate|]. destruct (N.eq_dec d 10) as [->|N]; [exists [], g; split; [reflexivity|intros []]|].
      cbn [existsb] in E. rewrite (proj2 (N.eqb_neq 10 d)) in E by congruence. destruct (IH E) as (g1 & g2 & -> & H). exists (d :: g1), g2.
      split; [reflexivity|]. intros [I|I]; [congruence|auto]. }
    destruct S as (g1 & g2 & -> & N1). rewrite forallb_app in Hg. apply andb_true_iff in Hg as [Hg1 Hg2]. cbn [forallb] in Hg2. apply andb_true_iff in Hg2 as [_ Hg2].
    assert (EQ : c :: (g1 ++ 10 :: g2) ++ b = (c :: g1) ++ 10 :: (g2 ++ b)) by (cbn [app]; rewrite <- app_assoc; reflexivity).
    rewrite EQ. pose proof (joined_break (c :: g1) (g2 ++ b)) as JB. rewrite (joined_lead g2 b Hg2 Hb Hne) in JB. etransitivity; [exact JB|]. clear JB EQ.
    rewrite (joined_line (c :: g1)).
    + rewrite strip_head by exact Hc. replace (rstrip g1) with (@nil N) by (symmetry; exact (rstrip_app_all is_space [] g1 Hg1)). rewrite count_occ_app.
      rewrite count_occ_cons_eq by reflexivity. rewrite (proj1 (count_occ_not_In N.eq_dec g1 10) N1). cbn [Nat.add repeat app]. reflexivity.
    + intros [I|I]; [subst c; discriminate Hc|auto].
  - assert (N1 : ~ In 10 g).
    { intro I. assert (K : existsb (N.eqb 10) g = true) by (apply existsb_exists; exists 10; split; [exact I|reflexivity]). congruence. }
    clear E. unfold lines_joined.
    assert (SP : split_on 10 (c :: g ++ b) = match split_on 10 b with h :: r => (c :: g ++ h) :: r | [] => [] end).
    { cbn [split_on]. rewrite (proj2 (N.eqb_neq c 10)) by (intro; subst; discriminate).
      assert (K : split_on 10 (g ++ b) = match split_on 10 b with h :: r => (g ++ h) :: r | [] => [] end).
      { clear Hg. induction g as [|d g IH]; [cbn [app]; destruct (split_on 10 b); reflexivity|]. cbn [app split_on].
        rewrite (proj2 (N.eqb_neq d 10)) by (intro; subst; apply N1; left; reflexivity). rewrite IH by (intro I; apply N1; right; exact I).
        pose proof (split_on_nonempty 10 b). destruct (split_on 10 b); [congruence|]. reflexivity. }
      rewrite K. pose proof (split_on_nonempty 10 b). destruct (split_on 10 b); [congruence|]. reflexivity. }
    rewrite SP. pose proof (split_on_nonempty 10 b). destruct (split_on 10 b) as [|h r] eqn:EB; [congruence|]. clear SP H.
    assert (Hh : stop is_space h /\ h <> []).
    { destruct b as [|d b]; [congruence|]. cbn [stop] in Hb. cbn [split_on] in EB. rewrite (proj2 (N.eqb_neq d 10)) in EB by (intro; subst; discriminate).
      destruct (split_on 10 b); inversion EB; subst; split; try discriminate; exact Hb. }
    destruct Hh as [Hh1 Hh2].
    assert (K : strip (c :: g ++ h) = c :: g ++ strip h).
    { rewrite strip_head by exact Hc. rewrite rstrip_skip by assumption. do 2 f_equal. destruct h as [|d h]; [congruence|]. rewrite strip_head by exact Hh1.
      unfold rstrip. cbn [rstrip_by]. cbn [stop] in Hh1. rewrite Hh1. destruct (rstrip_by is_space h); reflexivity. }
    cbn [map]. rewrite K. destruct r as [|r1 r]; [reflexivity|]. cbn [map]. rewrite !join_cons by discriminate. cbn [app]. rewrite <- app_assoc. reflexivity.
Qed.

(** [seen]: something visible was seen; [p]: white space since then *)
Fixpoint squash (seen : bool) (p s : str) : str :=
  match s with
  | [] => []
  | c :: r => if is_space c then squash seen (p ++ [c]) r
              else (if seen then conv p else []) ++ c :: squash true [] r
  end.
Lemma squash_spaces : forall (g : str) seen (p r : str), forallb is_space g = true -> squash seen p (g ++ r) = squash seen (p ++ g) r.
Proof.
  induction g as [|c g IH]; intros seen p r H; [rewrite app_nil_r; reflexivity|]. cbn [forallb] in H. apply andb_true_iff in H as [Hc H].
  cbn [app squash]. rewrite Hc, IH by exact H. rewrite <- app_assoc. reflexivity.
Qed.
Lemma squash_end : forall (g : str) seen (p : str), forallb is_space g = true -> squash seen p g = [].
Proof. intros. rewrite <- (app_nil_r g), squash_spaces by assumption. reflexivity. Qed.
Lemma joined_squash : forall n s, (List.length s <= n)%nat -> stop is_space s -> stop is_space (rev s) -> s <> [] -> lines_joined s = squash true [] s.
Proof.
  induction n as [|n IH]; intros s Hl H1 H2 Hne; [destruct s; [congruence|cbn in Hl; lia]|].
  destruct s as [|c s]; [congruence|]. cbn [stop] in H1. cbn [squash]. rewrite H1. cbn [conv existsb count_occ app].
  destruct (drop_while_split is_space s) as (g & Es & Hg). remember (drop_while is_space s) as b eqn:Eb.
  destruct b as [|d b].
  - rewrite app_nil_r in Es. subst s. assert (g = []).
    { destruct g as [|x g] using rev_ind; [reflexivity|]. rewrite forallb_app in Hg. apply andb_true_iff in Hg as [_ Hg]. cbn [forallb] in Hg.
      cbn [rev] in H2. rewrite rev_app_distr in H2. cbn [rev app stop] in H2. rewrite H2 in Hg. discriminate. }
    subst g. cbn [squash]. rewrite joined_line; [|intros [I|[]]; subst c; discriminate]. rewrite strip_head by exact H1. reflexivity.
  - assert (Hd : is_space d = false) by (eapply drop_while_head; symmetry; exact Eb). rewrite Es. rewrite joined_gap; [|exact H1|exact Hg|exact Hd|discriminate].
    rewrite squash_spaces by exact Hg. cbn [app]. rewrite (IH (d :: b)).
    + cbn [squash]. rewrite Hd. cbn [conv existsb count_occ app]. reflexivity.
    + rewrite Es in Hl. cbn [List.length] in Hl. rewrite app_length in Hl. cbn [List.length] in Hl. cbn [List.length]. lia.
    + exact Hd.
    + rewrite Es in H2. cbn [rev] in H2. rewrite rev_app_distr in H2. rewrite <- app_assoc in H2. destruct (rev (d :: b)) eqn:ER; [apply (f_equal (@List.length N)) in ER; rewrite rev_length in ER; discriminate|exact H2].
    + discriminate.
Qed.
Theorem join_squash : forall s, lines_joined (strip s) = squash false [] s.
Proof.
  intro s. destruct (strip_split is_space s) as (a & z & E & Ha & Hz). fold (strip s) in E.
  rewrite E at 2. rewrite squash_spaces by exact Ha. cbn [app].
  destruct (strip s) as [|c t] eqn:ES.
  - cbn [app]. rewrite squash_end by exact Hz. reflexivity.
  - assert (Hc : is_space c = false) by (eapply strip_by_head; exact ES).
    rewrite (joined_squash _ (c :: t) (Nat.le_refl _)); [|exact Hc| |discriminate].
    + cbn [app squash]. rewrite Hc. cbn [conv existsb app].
      assert (K : forall u seen p, squash seen p (u ++ z) = squash seen p u).
      { induction u as [|x u IH]; intros seen p; [apply squash_end; exact Hz|]. cbn [app squash]. rewrite !IH. reflexivity. }
      rewrite K. reflexivity.
    + destruct (rev (c :: t)) as [|y r] eqn:ER; [apply (f_equal (@List.length N)) in ER; rewrite rev_length in ER; discriminate|]. cbn [stop]. apply (strip_by_last is_space s y r). fold (strip s). rewrite ES. exact ER.
Qed.

(** ** white space around tags *)
Inductive pc := Ch (c : N) | Tg (close : bool) (name more : str).
Definition tag_src (close : bool) (name more : str) : str := 60 :: (if close then [47] else []) ++ name ++ more ++ [62].
Definition pc_src (x : pc) : str := match x with Ch c => [c] | Tg c n a => tag_src c n a end.
Definition tag_fine (close : bool) (name more : str) : Prop :=
  name <> [] /\ forallb (fun c => negb ((c =? 32) || (c =? 62))) name = true /\ (close = false -> stop (N.eqb 47) name) /\
  (more = [] \/ exists t, more = 32 :: t) /\ forallb (fun c => negb ((c =? 10) || (c =? 62))) more = true.
Definition pc_fine (x : pc) : Prop := match x with Ch c => c <> 60 | Tg c n a => tag_fine c n a end.
Definition tag_out (p : str) (close : bool) (name more l : str) : str :=
  let t := tag_src close name more in
  let s1 := startswith [32] p in let s2 := endswith [32] l in
  if in_list BLOCK_TAGS name then t
  else if close then (if s1 || s2 then t ++ [32] else t)
  else if endswith [47] more then (if s2 then (if s1 then 32 :: t else t) ++ [32] else if s1 then 32 :: t else t)
  else (if s1 || s2 then 32 :: t else t).
Definition rsub (b s : str) : str :=
  flat_map (fun x : char + mtch => match x with Datatypes.inl c => [c] | inr y => strip_tag y end) (scan strip_html_re 0 b s).

Lemma tag_caps : forall b p (close : bool) name more l y, tag_fine close name more -> forallb is_space p = true -> forallb is_space l = true -> stop is_space y ->
  m strip_html_re (mk b (p ++ tag_src close name more ++ l ++ y) []) (fun s => Some s) =
  Some (mk (rev (p ++ tag_src close name more ++ l) ++ b) y
    [(G_startend, if endswith [47] more then [47] else []); (G_tag, name); (G_end, if close then [47] else [])]).
Proof.
  intros b p close name more l y (Hne & Hn & Hs & Hm & Hr) Hp Hl Hy. unfold strip_html_re, seqs, tag_src. rewrite m_seq. unfold sps, sp.
  apply star_take; [exact Hp|reflexivity|]. cbn [app]. rewrite m_seq, m_c1, m_seq, m_grp.
  set (tail := name ++ more ++ 62 :: l ++ y).
  assert (TAIL : (((if close then [47] else []) ++ name ++ more ++ [62]) ++ l ++ y) = (if close then [47] else []) ++ tail).
  { unfold tail. rewrite <- !app_assoc. reflexivity. }
  rewrite TAIL.
  match goal with |- context [firstn (List.length ?x - _) ?x] => change x with ((if close then [47] else []) ++ tail) end.
  assert (E : forall b0 k, m (ROpt (c1 47)) (mk b0 ((if close then [47] else []) ++ tail) []) k =
     if close then orelse (k (mk (47 :: b0) tail [])) (k (mk b0 (47 :: tail) [])) else k (mk b0 tail [])).
  { intros b0 k. unfold ROpt. rewrite m_alt. destruct close.
    - cbn [app]. rewrite m_c1. reflexivity.
    - cbn [app]. rewrite m_c1_no; [reflexivity|]. unfold tail. destruct name as [|d name]; [congruence|]. cbn [app stop]. apply Hs. reflexivity. }
  match goal with |- ?lhs = Some ?r => assert (K : forall b1 x, b1 = rev x ++ rev p ++ b -> x = 60 :: (if close then [47] else []) ->
     m (RSeq (RGrp G_tag (RPlus true (RChr (fun c => negb ((c =? 32) || (c =? 62)))))) (RSeq dotstar_lazy (RSeq (RGrp G_startend (ROpt (c1 47))) (RSeq (c1 62) sps))))
       (mk b1 tail [(G_end, if close then [47] else [])]) (fun s => Some s) = Some r) end.
  { intros b1 x Hb1 Hx. rewrite m_seq, m_grp. unfold tail. apply plus_take; [exact Hne|exact Hn| |].
    - destruct Hm as [->|(t & ->)]; reflexivity.
    - cbn [bef rest caps]. rewrite firstn_app_exact. rewrite m_seq. unfold dotstar_lazy, dot.
      assert (FIN : forall b2 s0, m (RSeq (c1 62) (RStar true (RChr is_space))) (mk b2 (62 :: l ++ y) s0) (fun s => Some s) = Some (mk (rev l ++ 62 :: b2) y s0)).
      { intros. rewrite m_seq, m_c1. apply star_take; [exact Hl|exact Hy|reflexivity]. }
      assert (MISS : forall d u b2 s0, d <> 62 -> (d = 47 -> stop (N.eqb 62) u) ->
        m (RSeq (RGrp G_startend (ROpt (c1 47))) (RSeq (c1 62) (RStar true (RChr is_space)))) (mk b2 (d :: u) s0) (fun s => Some s) = None).
      { intros d u b2 s0 D1 D2. rewrite m_seq, m_grp. unfold ROpt. rewrite m_alt. destruct (N.eq_dec d 47) as [->|D3].
        - rewrite m_c1. cbn [bef rest caps]. rewrite m_seq, m_c1_no by (apply D2; reflexivity). cbn [orelse m]. cbn [bef rest caps].
          rewrite m_c1_no; [reflexivity|reflexivity].
        - rewrite (m_c1_no 47) by (cbn [stop]; apply N.eqb_neq; congruence). cbn [orelse m bef rest caps]. rewrite m_c1_no; [reflexivity|].
          cbn [stop]. apply N.eqb_neq. congruence. }
      destruct (endswith [47] more) eqn:EW.
      + assert (SH : exists a, more = a ++ [47]).
        { unfold endswith in EW. cbn [rev app] in EW. destruct (rev more) as [|d u] eqn:ER; [discriminate|]. cbn [startswith] in EW. rewrite andb_true_r in EW.
          apply N.eqb_eq in EW. subst d. exists (rev u). rewrite <- (rev_involutive more), ER. reflexivity. }
        destruct SH as (a & ->). rewrite forallb_app in Hr. apply andb_true_iff in Hr as [Hr _]. rewrite <- app_assoc. apply lazy_until.
        * eapply forallb_impl; [|exact Hr]. intros c Hc. cbv beta in Hc. apply negb_true_iff in Hc. apply orb_false_iff in Hc as [Hc _]. unfold is_dot. rewrite Hc. reflexivity.
        * rewrite m_seq, m_grp. unfold ROpt. rewrite m_alt. cbn [app]. rewrite m_c1. cbn [bef rest caps]. rewrite FIN. cbn [orelse]. f_equal. f_equal.
          -- subst b1 x. repeat (rewrite ?rev_app_distr; cbn [rev app]). rewrite <- ?app_assoc. cbn [app]. rewrite <- ?app_assoc. reflexivity.
          -- f_equal. f_equal. apply (firstn_app_exact [47]).
        * intros x1 x2 Ex Hx2. destruct x2 as [|d x2]; [congruence|]. cbn [app]. apply MISS.
          -- rewrite Ex, forallb_app in Hr. apply andb_true_iff in Hr as [_ Hr]. cbn [forallb] in Hr. apply andb_true_iff in Hr as [Hr _]. apply negb_true_iff, orb_false_iff in Hr as [_ Hr]. apply N.eqb_neq. exact Hr.
          -- intros _. rewrite Ex, forallb_app in Hr. apply andb_true_iff in Hr as [_ Hr]. cbn [forallb] in Hr. apply andb_true_iff in Hr as [_ Hr].
             destruct x2 as [|e x2]; [reflexivity|]. cbn [forallb] in Hr. apply andb_true_iff in Hr as [Hr _]. apply negb_true_iff, orb_false_iff in Hr as [_ Hr].
             cbn [app stop]. rewrite N.eqb_sym. exact Hr.
      + apply lazy_until.
        * eapply forallb_impl; [|exact Hr]. intros c Hc. cbv beta in Hc. apply negb_true_iff in Hc. apply orb_false_iff in Hc as [Hc _]. unfold is_dot. rewrite Hc. reflexivity.
        * rewrite m_seq, m_grp. unfold ROpt. rewrite m_alt. rewrite (m_c1_no 47) by reflexivity. cbn [orelse]. 
          match goal with |- m REps ?s ?k = _ => change (m REps s k) with (k s) end. cbn [bef rest caps]. rewrite FIN. f_equal. f_equal.
          -- subst b1 x. repeat (rewrite ?rev_app_distr; cbn [rev app]). rewrite <- ?app_assoc. cbn [app]. rewrite <- ?app_assoc. reflexivity.
          -- f_equal. f_equal. rewrite Nat.sub_diag. reflexivity.
        * intros x1 x2 Ex Hx2. destruct x2 as [|d x2]; [congruence|]. cbn [app]. apply MISS.
          -- rewrite Ex, forallb_app in Hr. apply andb_true_iff in Hr as [_ Hr]. cbn [forallb] in Hr. apply andb_true_iff in Hr as [Hr _]. apply negb_true_iff, orb_false_iff in Hr as [_ Hr]. apply N.eqb_neq. exact Hr.
          -- intros D47. rewrite Ex, forallb_app in Hr. apply andb_true_iff in Hr as [_ Hr]. cbn [forallb] in Hr. apply andb_true_iff in Hr as [_ Hr].
             destruct x2 as [|e x2].
             ++ exfalso. subst d. rewrite Ex in EW. unfold endswith in EW. rewrite rev_app_distr in EW. discriminate EW.
             ++ cbn [forallb] in Hr. apply andb_true_iff in Hr as [Hr _]. apply negb_true_iff, orb_false_iff in Hr as [_ Hr].
                cbn [app stop]. rewrite N.eqb_sym. exact Hr. }
  rewrite E. destruct close.
  - cbn [bef rest caps]. match goal with |- context [firstn ?n ([47] ++ tail)] => replace (firstn n ([47] ++ tail)) with [47] by (symmetry; apply (firstn_app_exact [47] tail)) end.
    match goal with |- orelse ?x _ = Some ?r => assert (X : x = Some r); [|rewrite X; reflexivity] end.
    apply (K _ [60; 47]); reflexivity.
  - cbn [bef rest caps app]. rewrite Nat.sub_diag. cbn [firstn]. apply (K _ [60]); reflexivity.
Qed.
Lemma tag_first : forall c n a, exists t, tag_src c n a = 60 :: t. Proof. intros. eexists. reflexivity. Qed.
Lemma tag_last : forall c n a, exists t, tag_src c n a = t ++ [62].
Proof. intros c n a. exists (60 :: (if c then [47] else []) ++ n ++ a). unfold tag_src. cbn [app]. rewrite <- !app_assoc. reflexivity. Qed.
Lemma strip_around : forall p (x : str) l, forallb is_space p = true -> forallb is_space l = true -> (exists c t, x = c :: t /\ is_space c = false) ->
  (exists d t, x = t ++ [d] /\ is_space d = false) -> strip (p ++ x ++ l) = x.
Proof.
  intros p x l Hp Hl (c & t & Ex & Hc) (d & t' & Ex' & Hd). unfold strip, strip_by, lstrip_by. rewrite drop_while_app by exact Hp.
  rewrite Ex. cbn [app]. rewrite drop_while_none by exact Hc.
  match goal with |- rstrip_by _ ?a = _ => replace a with ((c :: t) ++ l) by reflexivity end. rewrite rstrip_app_all by exact Hl. rewrite <- Ex, Ex'.
  apply rstrip_keep. exact Hd.
Qed.
Lemma strip_tag_out : forall p close name more l, forallb is_space p = true -> forallb is_space l = true ->
  strip_tag (mkm (p ++ tag_src close name more ++ l)
    [(G_startend, if endswith [47] more then [47] else []); (G_tag, name); (G_end, if close then [47] else [])]) = tag_out p close name more l.
Proof.
  intros p close name more l Hp Hl. unfold strip_tag, tag_out. cbn [mtxt].
  change (group0 G_tag _) with name. change (group0 G_end _) with (if close then [47] else []).
  match goal with |- context [group0 G_startend ?x] => change (group0 G_startend x) with (if endswith [47] more then [47] else []) end.
  destruct (tag_first close name more) as (t1 & E1). destruct (tag_last close name more) as (t2 & E2).
  rewrite strip_around; [|exact Hp|exact Hl|exists 60, t1; split; [exact E1|reflexivity]|exists 62, t2; split; [exact E2|reflexivity]].
  destruct (in_list BLOCK_TAGS name); [reflexivity|].
  assert (S1 : startswith [32] (p ++ tag_src close name more ++ l) = startswith [32] p).
  { destruct p as [|c p]; [rewrite E1; reflexivity|]. reflexivity. }
  assert (S2 : endswith [32] (p ++ tag_src close name more ++ l) = endswith [32] l).
  { unfold endswith. rewrite !rev_app_distr. destruct l as [|d l] using rev_ind; [|rewrite rev_app_distr; reflexivity].
    rewrite E2, rev_app_distr. reflexivity. }
  rewrite S1, S2. destruct close.
  - change (str_eqb [47] [47]) with true. reflexivity.
  - change (str_eqb [] [47]) with false. cbv iota. destruct (endswith [47] more); reflexivity.
Qed.
Lemma rsub_tag : forall (b p : str) close name more (l y : str), tag_fine close name more -> forallb is_space p = true -> forallb is_space l = true -> stop is_space y ->
  exists b', rsub b (p ++ tag_src close name more ++ l ++ y) = tag_out p close name more l ++ rsub b' y.
Proof.
  intros b p close name more l y F Hp Hl Hy. eexists. unfold rsub.
  replace (p ++ tag_src close name more ++ l ++ y) with ((p ++ tag_src close name more ++ l) ++ y) by (rewrite <- !app_assoc; reflexivity).
  erewrite resub_cons; [|destruct p; discriminate|rewrite <- !app_assoc; apply tag_caps; assumption]. rewrite strip_tag_out by assumption. reflexivity.
Qed.
Lemma rsub_miss : forall (b : str) (c : N) (t : str), m strip_html_re (mk b (c :: t) []) (fun s => Some s) = None -> rsub b (c :: t) = c :: rsub (c :: b) t.
Proof. intros b c t H. unfold rsub. rewrite scan_miss by exact H. reflexivity. Qed.
Lemma spaces_miss : forall (p b y : str), forallb is_space p = true -> stop is_space y -> stop (N.eqb 60) y -> m strip_html_re (mk b (p ++ y) []) (fun s => Some s) = None.
Proof.
  intros p b y Hp Hy H60. unfold strip_html_re, seqs. rewrite m_seq. unfold sps, sp.
  match goal with |- m _ _ ?k = None => set (K := k) end.
  assert (KN : forall b0 u, stop (N.eqb 60) u -> K (mk b0 u []) = None). { intros b0 u H. unfold K. rewrite m_seq, m_c1_no by exact H. reflexivity. }
  revert b. induction p as [|c p IH]; intro b.
  - cbn [app]. destruct y as [|d y]; [apply KN; exact I|]. rewrite m_star_chr. cbn [stop] in Hy. rewrite Hy. apply KN. exact H60.
  - cbn [forallb] in Hp. apply andb_true_iff in Hp as [Hc Hp]. cbn [app]. rewrite m_star_chr, Hc.
    match goal with |- orelse ?x _ = _ => replace x with (@None st) by (symmetry; apply IH; exact Hp) end. cbn [orelse]. apply KN.
    cbn [stop]. apply N.eqb_neq. intro. subst c. discriminate.
Qed.
Lemma rsub_spaces : forall (p b y : str), forallb is_space p = true -> stop is_space y -> stop (N.eqb 60) y -> exists b', rsub b (p ++ y) = p ++ rsub b' y.
Proof.
  induction p as [|c p IH]; intros b y Hp Hy H60; [exists b; reflexivity|]. pose proof Hp as Hp'. cbn [forallb] in Hp. apply andb_true_iff in Hp as [Hc Hp].
  cbn [app]. rewrite rsub_miss by (apply (spaces_miss (c :: p)); assumption). destruct (IH (c :: b) y Hp Hy H60) as (b' & E). exists b'. rewrite E. reflexivity.
Qed.
Lemma rsub_char : forall (b : str) (c : N) (y : str), is_space c = false -> c <> 60 -> rsub b (c :: y) = c :: rsub (c :: b) y.
Proof. intros b c y H1 H2. apply rsub_miss. apply (spaces_miss [] b (c :: y)); [reflexivity|exact H1|]. cbn [stop]. apply N.eqb_neq. congruence. Qed.

(** ** as a machine *)
Inductive sst := Run (p : str) | Tagged (p : str) (close : bool) (name more l : str).
Definition held (st : sst) : str := match st with Run p => p | Tagged p c n a l => p ++ tag_src c n a ++ l end.
Definition flush (st : sst) : str := match st with Run p => p | Tagged p c n a l => tag_out p c n a l end.
Definition sst_fine (st : sst) : Prop :=
  match st with Run p => forallb is_space p = true | Tagged p c n a l => forallb is_space p = true /\ forallb is_space l = true /\ tag_fine c n a end.
Fixpoint squeeze (st : sst) (ps : list pc) : str :=
  match ps with
  | [] => flush st
  | Ch c :: r =>
    if is_space c then squeeze (match st with Run p => Run (p ++ [c]) | Tagged p cl n a l => Tagged p cl n a (l ++ [c]) end) r
    else flush st ++ c :: squeeze (Run []) r
  | Tg cl n a :: r =>
    match st with
    | Run p => squeeze (Tagged p cl n a []) r
    | Tagged _ _ _ _ _ => flush st ++ squeeze (Tagged [] cl n a []) r
    end
  end.
Definition pcs_src (ps : list pc) : str := flat_map pc_src ps.
Theorem rsub_squeeze : forall ps st b, Forall pc_fine ps -> sst_fine st -> rsub b (held st ++ pcs_src ps) = squeeze st ps.
Proof.
  unfold pcs_src. induction ps as [|x ps IH]; intros st b F S.
  - cbn [flat_map squeeze]. rewrite app_nil_r. destruct st as [p|p c n a l]; cbn [held flush].
    + destruct (rsub_spaces p b [] S I I) as (b' & E). rewrite app_nil_r in E. rewrite E. unfold rsub. cbn. apply app_nil_r.
    + destruct S as (S1 & S2 & S3). destruct (rsub_tag b p c n a l [] S3 S1 S2 I) as (b' & E). rewrite app_nil_r in E. rewrite E. unfold rsub. cbn. apply app_nil_r.
  - inversion_clear F as [|? ? F1 F2]. cbn [flat_map squeeze]. destruct x as [c|cl n a].
    + cbn [pc_src app]. cbn [pc_fine] in F1. destruct (is_space c) eqn:Ec.
      * rewrite <- (IH (match st with Run p => Run (p ++ [c]) | Tagged p cl n a l => Tagged p cl n a (l ++ [c]) end) b F2).
        -- destruct st; cbn [held]; rewrite <- !app_assoc; reflexivity.
        -- assert (K : forall q : str, forallb is_space q = true -> forallb is_space (q ++ [c]) = true).
           { intros q Hq. rewrite forallb_app. apply andb_true_iff. split; [exact Hq|]. cbn [forallb]. rewrite Ec. reflexivity. }
           destruct st as [p|p cl n a l]; cbn [sst_fine] in *; [apply K; exact S|]. destruct S as (S1 & S2 & S3). auto.
      * destruct st as [p|p cl n a l]; cbn [held flush].
        -- destruct (rsub_spaces p b (c :: flat_map pc_src ps) S) as (b' & E); [exact Ec|cbn [stop]; apply N.eqb_neq; congruence|].
           rewrite E, rsub_char by assumption. rewrite <- (IH (Run []) (c :: b') F2) by reflexivity. reflexivity.
        -- destruct S as (S1 & S2 & S3). rewrite <- !app_assoc. destruct (rsub_tag b p cl n a l (c :: flat_map pc_src ps) S3 S1 S2 Ec) as (b' & E).
           match goal with |- rsub b ?s = _ => replace s with (p ++ tag_src cl n a ++ l ++ c :: flat_map pc_src ps) by reflexivity end.
           rewrite E, rsub_char by assumption. rewrite <- (IH (Run []) (c :: b') F2) by reflexivity. reflexivity.
    + cbn [pc_src pc_fine] in *. destruct st as [p|p cl' n' a' l]; cbn [held flush].
      * rewrite <- (IH (Tagged p cl n a []) b F2); [|cbn [sst_fine]; auto]. cbn [held]. rewrite app_nil_r, <- app_assoc. reflexivity.
      * destruct S as (S1 & S2 & S3). rewrite <- !app_assoc.
        destruct (rsub_tag b p cl' n' a' l (tag_src cl n a ++ flat_map pc_src ps) S3 S1 S2) as (b' & E).
        { destruct (tag_first cl n a) as (t & ->). reflexivity. }
        rewrite E. rewrite <- (IH (Tagged [] cl n a []) b' F2); [|cbn [sst_fine]; auto]. cbn [held app]. rewrite app_nil_r. reflexivity.
Qed.
Theorem strip_html_eq : forall s, strip_html s = rsub [] (squash false [] s).
Proof. intro s. unfold strip_html. fold (lines_joined (strip s)). rewrite join_squash. reflexivity. Qed.
