(** * Running regular expressions symbolically *)
From Coq Require Import List NArith Bool Lia Arith.
From Verif Require Import PyStr GNames Regex RegexFacts PyStrFacts.
Import ListNotations.
Open Scope N_scope.

(** the text [t] does not continue with a character of class [p] *)
Definition stop (p : char -> bool) (t : str) : Prop := match t with [] => True | c :: _ => p c = false end.

Lemma consuming_chr p : consuming (RChr p).
Proof. apply nonnull_consuming. reflexivity. Qed.

Lemma m_chr : forall p b c t cs k,
  m (RChr p) (mk b (c :: t) cs) k = if p c then k (mk (c :: b) t cs) else None.
Proof. reflexivity. Qed.
Lemma m_chr_stop : forall p b t cs k, stop p t -> m (RChr p) (mk b t cs) k = None.
Proof. intros p b [|c t] cs k H; simpl in *; [reflexivity|]. rewrite H. reflexivity. Qed.
Lemma m_seq : forall a b s k, m (RSeq a b) s k = m a s (fun s' => m b s' k).
Proof. reflexivity. Qed.
Lemma m_bos : forall t cs k, m RBos (mk [] t cs) k = k (mk [] t cs).
Proof. reflexivity. Qed.
Lemma m_bos_no : forall c b t cs k, m RBos (mk (c :: b) t cs) k = None.
Proof. reflexivity. Qed.
Lemma m_alt : forall a b s k, m (RAlt a b) s k = orelse (m a s k) (m b s k).
Proof. reflexivity. Qed.
Lemma m_grp : forall g r b t cs k, m (RGrp g r) (mk b t cs) k =
  m r (mk b t cs) (fun s' => k (mk (bef s') (rest s')
            ((g, firstn (List.length t - List.length (rest s')) t) :: caps s'))).
Proof. reflexivity. Qed.

Lemma m_star_chr : forall p b c t cs k,
  m (RStar true (RChr p)) (mk b (c :: t) cs) k =
  if p c then orelse (m (RStar true (RChr p)) (mk (c :: b) t cs) k) (k (mk b (c :: t) cs))
  else k (mk b (c :: t) cs).
Proof.
  intros. rewrite (m_star true) by apply consuming_chr. rewrite m_chr. destruct (p c); reflexivity.
Qed.
Lemma m_star_nil : forall g p b cs k, m (RStar g (RChr p)) (mk b [] cs) k = k (mk b [] cs).
Proof. reflexivity. Qed.
Lemma m_lazy_chr : forall p b c t cs k,
  m (RStar false (RChr p)) (mk b (c :: t) cs) k =
  orelse (k (mk b (c :: t) cs)) (if p c then m (RStar false (RChr p)) (mk (c :: b) t cs) k else None).
Proof.
  intros. rewrite (m_star false) by apply consuming_chr. rewrite m_chr. destruct (p c); reflexivity.
Qed.

(** greedy repetition taking everything it can *)
Lemma star_take : forall p x y b cs k r, forallb p x = true -> stop p y ->
  k (mk (rev x ++ b) y cs) = Some r -> m (RStar true (RChr p)) (mk b (x ++ y) cs) k = Some r.
Proof.
  induction x as [|c x IH]; intros y b cs k r Hx Hy Hk.
  - simpl app. destruct y as [|d y]; [exact Hk|]. rewrite m_star_chr. simpl in Hy. rewrite Hy. exact Hk.
  - simpl in Hx. apply andb_true_iff in Hx as [Hc Hx].
    change ((c :: x) ++ y) with (c :: (x ++ y)). rewrite m_star_chr, Hc.
    rewrite IH with (r := r); [reflexivity|exact Hx|exact Hy|]. simpl in Hk. rewrite <- app_assoc in Hk. exact Hk.
Qed.

Lemma Mt_star_chr : forall g p s1 s2, Mt (RStar g (RChr p)) s1 s2 ->
  exists z, rest s1 = z ++ rest s2 /\ bef s2 = rev z ++ bef s1 /\ caps s2 = caps s1 /\ forallb p z = true.
Proof.
  intros g p s1 s2 H. remember (RStar g (RChr p)) as r0 eqn:E. induction H; try discriminate.
  - exists []. auto.
  - inversion E; subst. destruct (IHMt2 eq_refl) as (w & A1 & A2 & A3 & A4). inversion H; subst.
    exists (c :: w). cbn [rest bef caps] in *. rewrite A1, A2, A3. simpl. rewrite H2, A4, <- app_assoc. auto.
Qed.

(** greedy repetition that has to give back: [x] is the longest prefix where the
    continuation succeeds *)
Lemma star_back : forall p x y b cs k r, forallb p x = true ->
  k (mk (rev x ++ b) y cs) = Some r ->
  (forall z y', y = z ++ y' -> z <> [] -> forallb p z = true -> k (mk (rev (x ++ z) ++ b) y' cs) = None) ->
  m (RStar true (RChr p)) (mk b (x ++ y) cs) k = Some r.
Proof.
  induction x as [|c x IH]; intros y b cs k r Hx Hk Hz.
  - simpl app. rewrite (m_star true) by apply consuming_chr.
    rewrite m_none; [exact Hk|]. intros s' Hs.
    apply m_none. intros s'' Hs'.
    assert (HH : exists z, z <> [] /\ y = z ++ rest s'' /\ bef s'' = rev z ++ b /\ caps s'' = cs /\ forallb p z = true).
    { inversion Hs; subst. apply Mt_star_chr in Hs' as (z & A1 & A2 & A3 & A4). cbn [rest bef caps] in *.
      exists (c :: z). split; [discriminate|]. split; [rewrite A1; reflexivity|].
      split; [rewrite A2; cbn [rev]; rewrite <- app_assoc; reflexivity|]. split; [exact A3|].
      cbn [forallb]. apply andb_true_intro. split; assumption. }
    destruct HH as (z & Hne & E1 & E2 & E3 & E4). destruct s'' as [b2 t2 c2]. cbn [rest bef caps] in *. subst.
    apply (Hz z t2 eq_refl Hne E4).
  - simpl in Hx. apply andb_true_iff in Hx as [Hc Hx].
    change ((c :: x) ++ y) with (c :: (x ++ y)). rewrite m_star_chr, Hc.
    rewrite IH with (r := r); [reflexivity|exact Hx| |].
    + simpl in Hk. rewrite <- app_assoc in Hk. exact Hk.
    + intros z y' E Hne Hp. specialize (Hz z y' E Hne Hp). simpl in Hz. rewrite <- app_assoc in Hz. exact Hz.
Qed.

(** lazy repetition: [x] is the shortest prefix where the continuation succeeds *)
Lemma lazy_until : forall p x y b cs k r, forallb p x = true ->
  k (mk (rev x ++ b) y cs) = Some r ->
  (forall x1 x2, x = x1 ++ x2 -> x2 <> [] -> k (mk (rev x1 ++ b) (x2 ++ y) cs) = None) ->
  m (RStar false (RChr p)) (mk b (x ++ y) cs) k = Some r.
Proof.
  induction x as [|c x IH]; intros y b cs k r Hx Hk Hz.
  - simpl app. simpl in Hk. destruct y as [|d y]; [exact Hk|]. rewrite m_lazy_chr, Hk. reflexivity.
  - simpl in Hx. apply andb_true_iff in Hx as [Hc Hx].
    change ((c :: x) ++ y) with (c :: (x ++ y)). rewrite m_lazy_chr, Hc.
    pose proof (Hz [] (c :: x) eq_refl ltac:(discriminate)) as H0. simpl in H0. rewrite H0. simpl.
    apply IH; [exact Hx| |].
    + simpl in Hk. rewrite <- app_assoc in Hk. exact Hk.
    + intros x1 x2 E Hne. specialize (Hz (c :: x1) x2 ltac:(rewrite E; reflexivity) Hne).
      simpl in Hz. rewrite <- app_assoc in Hz. exact Hz.
Qed.

(** ** literals *)
Lemma m_lit : forall w b t cs k, m (lit w) (mk b (w ++ t) cs) k = k (mk (rev w ++ b) t cs).
Proof.
  induction w as [|c w IH]; intros b t cs k; [reflexivity|].
  destruct w as [|d w].
  - cbn [lit c1]. simpl app. unfold c1. rewrite m_chr, N.eqb_refl. reflexivity.
  - change (lit (c :: d :: w)) with (RSeq (c1 c) (lit (d :: w))). rewrite m_seq. unfold c1.
    change ((c :: d :: w) ++ t) with (c :: ((d :: w) ++ t)). rewrite m_chr, N.eqb_refl, IH.
    change (rev (c :: d :: w)) with (rev (d :: w) ++ [c]). rewrite <- app_assoc. reflexivity.
Qed.
Lemma m_lit_none : forall w b t cs k, startswith w t = false -> m (lit w) (mk b t cs) k = None.
Proof.
  induction w as [|c w IH]; intros b t cs k H; [discriminate|].
  destruct w as [|d w].
  - unfold lit, c1. destruct t as [|e t]; [reflexivity|]. rewrite m_chr. simpl in H.
    destruct (c =? e); [discriminate|reflexivity].
  - change (lit (c :: d :: w)) with (RSeq (c1 c) (lit (d :: w))). rewrite m_seq. unfold c1.
    destruct t as [|e t]; [reflexivity|]. rewrite m_chr. 
    change (startswith (c :: d :: w) (e :: t)) with ((c =? e) && startswith (d :: w) t) in H.
    destruct (c =? e); [|reflexivity]. apply IH. exact H.
Qed.

(** ** one match at a position *)
Lemma at_pos_hit : forall r b w t cs, w <> [] ->
  m r (mk b (w ++ t) []) (fun s => Some s) = Some (mk (rev w ++ b) t cs) ->
  at_pos r b (w ++ t) = [mkm w cs].
Proof.
  intros r b w t cs Hw H. unfold at_pos, try_at.
  rewrite (m_ext r _ _ (fun s => Some s)) by reflexivity. rewrite H. cbn [rest caps mtxt].
  rewrite firstn_app_exact. destruct w; [congruence|reflexivity].
Qed.
Lemma at_pos_miss : forall r b t, m r (mk b t []) (fun s => Some s) = None -> at_pos r b t = [].
Proof.
  intros r b t H. unfold at_pos, try_at.
  rewrite (m_ext r _ _ (fun s => Some s)) by reflexivity. rewrite H. reflexivity.
Qed.
Lemma scan_hit : forall r b w t cs, w <> [] ->
  m r (mk b (w ++ t) []) (fun s => Some s) = Some (mk (rev w ++ b) t cs) ->
  scan r 0 b (w ++ t) = inr (mkm w cs) :: scan r 0 (rev w ++ b) t.
Proof. intros. apply scan_one; auto. apply at_pos_hit; auto. Qed.
Lemma scan_miss : forall r b c t, m r (mk b (c :: t) []) (fun s => Some s) = None ->
  scan r 0 b (c :: t) = inl c :: scan r 0 (c :: b) t.
Proof. intros. apply scan_none, at_pos_miss. assumption. Qed.

(** ** completeness: a possible match is found *)
Fixpoint starwf (r : regex) : bool :=
  match r with
  | RSeq a b | RAlt a b => starwf a && starwf b
  | RStar _ a => nonnull a && starwf a
  | RGrp _ a => starwf a
  | RNotAhead _ => true
  | _ => true
  end.
Lemma orelse_none : forall {A} (a b : option A), orelse a b = None <-> a = None /\ b = None.
Proof. intros A [x|] b; simpl; intuition congruence. Qed.
Lemma m_complete : forall r, starwf r = true -> forall s s' k, Mt r s s' -> k s' <> None -> m r s k <> None.
Proof.
  intros r Hr s s' k H. revert Hr k. induction H; intros Hr k Hk; simpl in Hr.
  - exact Hk.
  - cbn [m rest]. rewrite H. exact Hk.
  - apply andb_true_iff in Hr as [H1 H2]. rewrite m_seq. apply IHMt1; [exact H1|]. apply IHMt2; assumption.
  - apply andb_true_iff in Hr as [H1 H2]. rewrite m_alt. intro E. apply orelse_none in E as [E _].
    revert E. apply IHMt; assumption.
  - apply andb_true_iff in Hr as [H1 H2]. rewrite m_alt. intro E. apply orelse_none in E as [_ E].
    revert E. apply IHMt; assumption.
  - apply andb_true_iff in Hr as [H1 H2]. rewrite m_star by (apply nonnull_consuming; exact H1).
    destruct g; intro E; apply orelse_none in E; tauto.
  - pose proof Hr as Hr'. apply andb_true_iff in Hr' as [H1 H2]. rewrite m_star by (apply nonnull_consuming; exact H1).
    assert (G : m r s (fun s' => m (RStar g r) s' k) <> None).
    { apply IHMt1; [exact H2|]. apply IHMt2; [exact Hr|exact Hk]. }
    destruct g; intro E; apply orelse_none in E; tauto.
  - destruct s as [b t cs]. rewrite m_grp. apply IHMt; [exact Hr|]. exact Hk.
  - cbn [m]. rewrite H, H0. exact Hk.
  - cbn [m]. destruct H as [H|(b & H)]; rewrite H; exact Hk.
  - cbn [m]. destruct H as [H|(b & H)]; rewrite H; exact Hk.
  - cbn [m]. rewrite H. exact Hk.
  - cbn [m]. destruct (bef s); [subst; exact Hk|]. rewrite H. exact Hk.
  - cbn [m]. rewrite H. exact Hk.
Qed.
Lemma at_pos_complete : forall r b t s', starwf r = true -> Mt r (mk b t []) s' -> at_pos r b t <> [].
Proof.
  intros r b t s' Hw H. unfold at_pos, try_at.
  rewrite (m_ext r _ _ (fun s => Some s)) by reflexivity.
  pose proof (m_complete r Hw _ _ (fun s => Some s) H ltac:(discriminate)) as E.
  destruct (m r (mk b t []) (fun s => Some s)); [|congruence].
  cbn [mtxt]. destruct (firstn _ t); [|discriminate]. destruct (match m r _ _ with Some _ => _ | None => _ end); discriminate.
Qed.

(** an unmatched character: nothing matches there *)
Lemma scan_inl : forall n r b t l c l', (List.length t <= n)%nat -> nonnull r = true ->
  scan r 0 b t = l ++ inl c :: l' ->
  exists b' t', t = flat_map piece_txt l ++ c :: t' /\ at_pos r b' (c :: t') = [] /\ b' = rev (flat_map piece_txt l) ++ b /\
    flat_map piece_txt l' = t'.
Proof.
  induction n; intros r b t l c l' Hn Hr H.
  - destruct t; [|simpl in Hn; lia]. rewrite scan_end in H.
    assert (E : In (inl c) (map (@inr char mtch) (at_pos r b []))) by (rewrite H, in_app_iff; simpl; auto).
    apply in_map_iff in E as (x & E & _). discriminate.
  - destruct t as [|d t].
    { apply (IHn r b [] l c l'); auto. simpl. lia. }
    assert (Hne : forall adv x, try_at r adv b (d :: t) = Some x -> mtxt x <> []).
    { intros adv x Hx. apply try_at_Mt in Hx as (s' & Hm & E & _). apply (nonnull_consuming r Hr) in Hm.
      cbn [rest] in Hm. rewrite E, app_length in Hm. intro E2. rewrite E2 in Hm. simpl in Hm. lia. }
    destruct (at_pos_shape r b (d :: t)) as [E|[(x & E & Et)|(x & y & E & Ex & Et & _)]].
    + rewrite (scan_none r b d t E) in H. destruct l as [|p l].
      * inversion H; subst. exists b, t. split; [reflexivity|]. split; [exact E|]. split; [reflexivity|].
        apply (scan_partition (List.length t)). lia.
      * inversion H; subst. apply IHn in H2 as (b' & t' & E1 & E2 & E3 & E4); [|simpl in Hn; lia|exact Hr].
        exists b', t'. cbn [flat_map piece_txt app]. rewrite E1. split; [reflexivity|]. split; [exact E2|].
        split; [|exact E4]. rewrite E3. cbn [rev]. rewrite <- app_assoc. reflexivity.
    + pose proof (Hne _ _ Et) as Hx. apply try_at_Mt in Et as (s' & _ & Et & _).
      rewrite Et in E, H. rewrite (scan_one r b (mtxt x) (rest s') x E eq_refl Hx) in H.
      destruct l as [|p l]; [discriminate|]. inversion H; subst.
      assert (Hl : (List.length (rest s') <= n)%nat).
      { apply (f_equal (@List.length N)) in Et. rewrite app_length in Et. destruct (mtxt x); [congruence|]. simpl in Et, Hn. lia. }
      apply IHn in H2 as (b' & t' & E1 & E2 & E3 & E4); [|exact Hl|exact Hr].
      exists b', t'. cbn [flat_map piece_txt]. rewrite Et, <- app_assoc, <- E1. split; [reflexivity|]. split; [exact E2|].
      split; [|exact E4]. rewrite E3, rev_app_distr, <- app_assoc. reflexivity.
    + exfalso. eapply Hne; eauto.
Qed.
