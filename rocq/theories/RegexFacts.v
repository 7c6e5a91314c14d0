(** * Facts about the regex matcher *)
From Coq Require Import List Arith NArith Bool Lia.
From Verif Require Import PyStr GNames Regex.
Import ListNotations.
Open Scope N_scope.

(** ** Declarative semantics: [Mt r s s'] — [r] can match between [s] and [s'] *)
Inductive Mt : regex -> st -> st -> Prop :=
| Mt_eps s : Mt REps s s
| Mt_chr p b c t cs : p c = true -> Mt (RChr p) (mk b (c :: t) cs) (mk (c :: b) t cs)
| Mt_seq a b s s1 s2 : Mt a s s1 -> Mt b s1 s2 -> Mt (RSeq a b) s s2
| Mt_altl a b s s' : Mt a s s' -> Mt (RAlt a b) s s'
| Mt_altr a b s s' : Mt b s s' -> Mt (RAlt a b) s s'
| Mt_star0 g r s : Mt (RStar g r) s s
| Mt_starS g r s s1 s2 : Mt r s s1 -> Mt (RStar g r) s1 s2 -> Mt (RStar g r) s s2
| Mt_grp g r s s' : Mt r s s' ->
    Mt (RGrp g r) s (mk (bef s') (rest s')
      ((g, firstn (List.length (rest s) - List.length (rest s')) (rest s)) :: caps s'))
| Mt_back g w s s' : cap g (caps s) = Some w -> eat w s = Some s' -> Mt (RBack g) s s'
| Mt_bol s : (bef s = [] \/ exists b, bef s = 10 :: b) -> Mt RBol s s
| Mt_eol s : (rest s = [] \/ exists t, rest s = 10 :: t) -> Mt REol s s
| Mt_bos s : bef s = [] -> Mt RBos s s
| Mt_behind neg p s : match bef s with [] => neg = true | c :: _ => xorb neg (p c) = true end ->
    Mt (RBehind neg p) s s
| Mt_notahead r s : m r s (fun s' => Some s') = None -> Mt (RNotAhead r) s s.

Lemma orelse_some {A} (a b : option A) x : orelse a b = Some x -> a = Some x \/ (a = None /\ b = Some x).
Proof. destruct a; simpl; intro H; [left; exact H | right; auto]. Qed.

(** the matcher is sound *)
Lemma m_sound : forall r s k x, m r s k = Some x -> exists s', Mt r s s' /\ k s' = Some x.
Proof.
  induction r; intros s k x H; simpl in H.
  - exists s; split; [constructor | exact H].
  - destruct s as [b [|c t] cs]; simpl in H; [discriminate|].
    destruct (p c) eqn:E; [|discriminate]. eexists; split; [constructor; exact E | exact H].
  - apply IHr1 in H as [s1 [H1 H]]. apply IHr2 in H as [s2 [H2 H]].
    exists s2; split; [econstructor; eauto | exact H].
  - apply orelse_some in H as [H|[_ H]].
    + apply IHr1 in H as [s1 [H1 H]]. exists s1; split; [apply Mt_altl|]; auto.
    + apply IHr2 in H as [s1 [H1 H]]. exists s1; split; [apply Mt_altr|]; auto.
  - remember (List.length (rest s)) as n eqn:En. clear En.
    revert s H. induction n; intros s H; simpl in H.
    + exists s; split; [constructor | exact H].
    + destruct greedy.
      * apply orelse_some in H as [H|[_ H]].
        -- apply IHr in H as [s1 [H1 H]]. apply IHn in H as [s2 [H2 H]].
           exists s2; split; [eapply Mt_starS; eauto | exact H].
        -- exists s; split; [constructor | exact H].
      * apply orelse_some in H as [H|[_ H]].
        -- exists s; split; [constructor | exact H].
        -- apply IHr in H as [s1 [H1 H]]. apply IHn in H as [s2 [H2 H]].
           exists s2; split; [eapply Mt_starS; eauto | exact H].
  - apply IHr in H as [s1 [H1 H]].
    eexists; split; [apply Mt_grp; exact H1 | exact H].
  - destruct (cap g (caps s)) eqn:E; [|discriminate].
    destruct (eat s0 s) eqn:E2; [|discriminate].
    exists s1; split; [econstructor; eauto | exact H].
  - exists s. destruct (bef s) as [|c b] eqn:E; [split; [constructor; auto | exact H]|].
    destruct (c =? 10) eqn:E2; [|discriminate]. apply N.eqb_eq in E2; subst.
    split; [constructor; right; eauto | exact H].
  - exists s. destruct (rest s) as [|c b] eqn:E; [split; [constructor; auto | exact H]|].
    destruct (c =? 10) eqn:E2; [|discriminate]. apply N.eqb_eq in E2; subst.
    split; [constructor; right; eauto | exact H].
  - exists s. destruct (bef s) eqn:E; [|discriminate]. split; [constructor; exact E | exact H].
  - exists s. destruct (bef s) eqn:E.
    + destruct neg; [|discriminate]. split; [constructor; rewrite E; reflexivity | exact H].
    + destruct (xorb neg (p n)) eqn:E2; [|discriminate].
      split; [constructor; rewrite E; exact E2 | exact H].
  - exists s. destruct (m r s (fun s' : st => Some s')) eqn:E; [discriminate|].
    split; [constructor; exact E | exact H].
Qed.

(** ** Consumption and captures *)
Definition infix (v w : str) : Prop := exists a b, w = a ++ v ++ b.

Lemma infix_refl w : infix w w.
Proof. exists [], []. simpl. rewrite app_nil_r. reflexivity. Qed.
Lemma infix_app_l v a w : infix v w -> infix v (a ++ w).
Proof. intros [x [y ->]]. exists (a ++ x), y. rewrite <- !app_assoc. reflexivity. Qed.
Lemma infix_app_r v a w : infix v w -> infix v (w ++ a).
Proof. intros [x [y ->]]. exists x, (y ++ a). rewrite <- !app_assoc. reflexivity. Qed.
Lemma infix_trans u v w : infix u v -> infix v w -> infix u w.
Proof.
  intros [a [b ->]] [x [y ->]]. exists (x ++ a), (b ++ y). rewrite <- !app_assoc. reflexivity.
Qed.
Lemma infix_length v w : infix v w -> (List.length v <= List.length w)%nat.
Proof. intros [a [b ->]]. rewrite !app_length. lia. Qed.

(** [s'] is [s] advanced over [w], with new captures [cs] *)
Definition ext (w : str) (cs : list (gname * str)) (s s' : st) : Prop :=
  rest s = w ++ rest s' /\ bef s' = rev w ++ bef s /\ caps s' = cs ++ caps s /\
  Forall (fun gv => infix (snd gv) w) cs.

Lemma eat_ext : forall w s s', eat w s = Some s' -> ext w [] s s'.
Proof.
  induction w; simpl; intros s s' H.
  - inversion H; subst. repeat split; auto.
  - destruct (rest s) as [|d t] eqn:E; [discriminate|].
    destruct (a =? d) eqn:E2; [|discriminate]. apply N.eqb_eq in E2; subst d.
    apply IHw in H as (H1 & H2 & H3 & _). simpl in *.
    repeat split; auto.
    + rewrite E, H1. reflexivity.
    + rewrite H2. simpl. rewrite <- app_assoc. reflexivity.
Qed.

Lemma firstn_app_exact {A} (w t : list A) :
  firstn (List.length (w ++ t) - List.length t) (w ++ t) = w.
Proof.
  rewrite app_length. replace (List.length w + List.length t - List.length t)%nat with (List.length w) by lia.
  rewrite firstn_app, Nat.sub_diag, firstn_all. simpl. apply app_nil_r.
Qed.

Lemma Mt_ext : forall r s s', Mt r s s' -> exists w cs, ext w cs s s'.
Proof.
  induction 1.
  - exists [], []. repeat split; auto.
  - exists [c], []. repeat split; auto.
  - destruct IHMt1 as (w1 & c1 & A1 & B1 & C1 & D1).
    destruct IHMt2 as (w2 & c2 & A2 & B2 & C2 & D2).
    exists (w1 ++ w2), (c2 ++ c1). repeat split.
    + rewrite A1, A2, app_assoc. reflexivity.
    + rewrite B2, B1, rev_app_distr, app_assoc. reflexivity.
    + rewrite C2, C1, app_assoc. reflexivity.
    + apply Forall_app; split.
      * eapply Forall_impl; [|exact D2]. intros; apply infix_app_l; auto.
      * eapply Forall_impl; [|exact D1]. intros; apply infix_app_r; auto.
  - exact IHMt.
  - exact IHMt.
  - exists [], []. repeat split; auto.
  - destruct IHMt1 as (w1 & c1 & A1 & B1 & C1 & D1).
    destruct IHMt2 as (w2 & c2 & A2 & B2 & C2 & D2).
    exists (w1 ++ w2), (c2 ++ c1). repeat split.
    + rewrite A1, A2, app_assoc. reflexivity.
    + rewrite B2, B1, rev_app_distr, app_assoc. reflexivity.
    + rewrite C2, C1, app_assoc. reflexivity.
    + apply Forall_app; split.
      * eapply Forall_impl; [|exact D2]. intros; apply infix_app_l; auto.
      * eapply Forall_impl; [|exact D1]. intros; apply infix_app_r; auto.
  - destruct IHMt as (w & cs & A & B & C & D).
    exists w, ((g, w) :: cs). repeat split; simpl; auto.
    + rewrite A, firstn_app_exact, C. reflexivity.
    + constructor; [apply infix_refl | exact D].
  - exists w, []. apply eat_ext; auto.
  - exists [], []. repeat split; auto.
  - exists [], []. repeat split; auto.
  - exists [], []. repeat split; auto.
  - exists [], []. repeat split; auto.
  - exists [], []. repeat split; auto.
Qed.

(** ** Groups that a match must / can set *)
Fixpoint sets (r : regex) (g : gname) : bool :=
  match r with
  | RSeq a b => sets a g || sets b g
  | RAlt a b => sets a g && sets b g
  | RGrp h r => gname_beq g h || sets r g
  | _ => false
  end.
Fixpoint may (r : regex) (g : gname) : bool :=
  match r with
  | RSeq a b | RAlt a b => may a g || may b g
  | RGrp h r => gname_beq g h || may r g
  | RStar _ r => may r g
  | _ => false
  end.

Lemma cap_cons_ne g h v cs : gname_beq g h = false -> cap g ((h, v) :: cs) = cap g cs.
Proof. intro H. simpl. rewrite H. reflexivity. Qed.

Lemma Mt_keeps r s s' g : Mt r s s' -> cap g (caps s) <> None -> cap g (caps s') <> None.
Proof.
  intros H. apply Mt_ext in H as (w & cs & _ & _ & C & _). rewrite C.
  intro Hn. clear C. induction cs as [|[h v] cs IH]; simpl; [exact Hn|].
  destruct (gname_beq g h); [discriminate | exact IH].
Qed.

Lemma Mt_sets : forall r s s' g, Mt r s s' -> sets r g = true -> cap g (caps s') <> None.
Proof.
  intros r s s' g H. induction H; simpl; intro Hs; try discriminate.
  - apply orb_true_iff in Hs as [Hs|Hs].
    + eapply Mt_keeps; [eassumption|]. auto.
    + auto.
  - apply andb_true_iff in Hs as [H1 H2]. auto.
  - apply andb_true_iff in Hs as [H1 H2]. auto.
  - destruct (gname_beq g g0) eqn:E; [discriminate|]. simpl in Hs. auto.
Qed.

Lemma Mt_may : forall r s s' g, Mt r s s' -> may r g = false -> cap g (caps s') = cap g (caps s).
Proof.
  intros r s s' g H. induction H; simpl; intro Hs; auto.
  - apply orb_false_iff in Hs as [H1 H2]. rewrite IHMt2, IHMt1; auto.
  - apply orb_false_iff in Hs as [H1 H2]. auto.
  - apply orb_false_iff in Hs as [H1 H2]. auto.
  - rewrite IHMt2, IHMt1; auto.
  - apply orb_false_iff in Hs as [H1 H2]. rewrite H1. auto.
  - apply eat_ext in H0 as (_ & _ & C & _). rewrite C. reflexivity.
Qed.

(** ** Alternatives *)
Lemma Mt_alts : forall l s s', Mt (alts l) s s' -> exists r, In r l /\ Mt r s s'.
Proof.
  induction l as [|a l IH]; intros s s' H.
  - inversion H; subst. discriminate.
  - destruct l as [|b l].
    + exists a; split; [left; reflexivity | exact H].
    + change (Mt (RAlt a (alts (b :: l))) s s') in H. inversion H; subst.
      * exists a; split; [left; reflexivity | assumption].
      * apply IH in H4 as (r & Hr & Hm). exists r; split; [right; exact Hr | exact Hm].
Qed.

(** ** The continuation matters only at reachable states *)
Lemma m_ext : forall r s k1 k2,
  (forall s', Mt r s s' -> k1 s' = k2 s') -> m r s k1 = m r s k2.
Proof.
  induction r; intros s k1 k2 H; simpl.
  - apply H. constructor.
  - destruct s as [b [|c t] cs]; simpl; [reflexivity|].
    destruct (p c) eqn:E; [|reflexivity]. apply H. constructor; exact E.
  - apply IHr1. intros s1 H1. apply IHr2. intros s2 H2. apply H. econstructor; eauto.
  - rewrite (IHr1 s k1 k2), (IHr2 s k1 k2); auto; intros; apply H; [apply Mt_altr | apply Mt_altl]; auto.
  - remember (List.length (rest s)) as n eqn:En. clear En.
    revert s H. induction n; intros s H; simpl.
    + apply H. constructor.
    + destruct greedy.
      * rewrite (H s) by constructor. f_equal.
        apply IHr. intros s1 H1. apply IHn. intros s2 H2. apply H. eapply Mt_starS; eauto.
      * rewrite (H s) by constructor. f_equal.
        apply IHr. intros s1 H1. apply IHn. intros s2 H2. apply H. eapply Mt_starS; eauto.
  - apply IHr. intros s' Hs. apply H. apply Mt_grp. exact Hs.
  - destruct (cap g (caps s)) eqn:E; [|reflexivity].
    destruct (eat s0 s) eqn:E2; [|reflexivity]. apply H. econstructor; eauto.
  - destruct (bef s) as [|c b] eqn:E; [apply H; constructor; auto|].
    destruct (c =? 10) eqn:E2; [|reflexivity]. apply N.eqb_eq in E2; subst.
    apply H; constructor; right; eauto.
  - destruct (rest s) as [|c b] eqn:E; [apply H; constructor; auto|].
    destruct (c =? 10) eqn:E2; [|reflexivity]. apply N.eqb_eq in E2; subst.
    apply H; constructor; right; eauto.
  - destruct (bef s) eqn:E; [|reflexivity]. apply H; constructor; exact E.
  - destruct (bef s) eqn:E.
    + destruct neg; [|reflexivity]. apply H; constructor; rewrite E; reflexivity.
    + destruct (xorb neg (p n)) eqn:E2; [|reflexivity]. apply H; constructor; rewrite E; exact E2.
  - destruct (m r s (fun s' : st => Some s')) eqn:E; [reflexivity|].
    apply H; constructor; exact E.
Qed.

Lemma m_none : forall r s k, (forall s', Mt r s s' -> k s' = None) -> m r s k = None.
Proof.
  intros. destruct (m r s k) eqn:E; [|reflexivity].
  apply m_sound in E as (s' & H1 & H2). rewrite H in H2; auto.
Qed.

(** ** Bodies that consume *)
Definition consuming (r : regex) : Prop :=
  forall s s', Mt r s s' -> (List.length (rest s') < List.length (rest s))%nat.

(** a sufficient syntactic condition *)
Fixpoint nonnull (r : regex) : bool :=
  match r with
  | RChr _ => true
  | RSeq a b => nonnull a || nonnull b
  | RAlt a b => nonnull a && nonnull b
  | RGrp _ r => nonnull r
  | _ => false
  end.

Lemma Mt_length r s s' : Mt r s s' -> (List.length (rest s') <= List.length (rest s))%nat.
Proof. intro H. apply Mt_ext in H as (w & cs & A & _). rewrite A, app_length. lia. Qed.

Lemma nonnull_consuming : forall r, nonnull r = true -> consuming r.
Proof.
  unfold consuming. intros r Hn s s' H. induction H; simpl in *; try discriminate; auto.
  - apply orb_true_iff in Hn as [Hn|Hn].
    + apply Mt_length in H0. specialize (IHMt1 Hn). lia.
    + apply Mt_length in H. specialize (IHMt2 Hn). lia.
  - apply andb_true_iff in Hn as [? ?]; auto.
  - apply andb_true_iff in Hn as [? ?]; auto.
Qed.

(** the loop of [RStar] with explicit fuel *)
Definition star_loop (greedy : bool) (r : regex) (k : st -> option st) :=
  fix star (n : nat) (s : st) : option st :=
       match n with
       | O => k s
       | S n' => if greedy
                 then orelse (m r s (fun s' => star n' s')) (k s)
                 else orelse (k s) (m r s (fun s' => star n' s'))
       end.

Lemma star_loop_S greedy r k n s : star_loop greedy r k (S n) s =
  if greedy then orelse (m r s (star_loop greedy r k n)) (k s)
  else orelse (k s) (m r s (star_loop greedy r k n)).
Proof. reflexivity. Qed.

Lemma star_fuel_irrelevant : forall greedy r k, consuming r ->
  forall n n' s, (List.length (rest s) <= n)%nat -> (List.length (rest s) <= n')%nat ->
  star_loop greedy r k n s = star_loop greedy r k n' s.
Proof.
  intros greedy r k Hc.
  assert (Hz : forall n s, rest s = [] -> star_loop greedy r k n s = k s).
  { intros n s Hs. destruct n; [reflexivity|]. rewrite star_loop_S.
    assert (E : m r s (star_loop greedy r k n) = None).
    { apply m_none. intros s' H. apply Hc in H. rewrite Hs in H. simpl in H. lia. }
    rewrite E. destruct greedy; simpl; [reflexivity|]. destruct (k s); reflexivity. }
  induction n; intros n' s H1 H2.
  - rewrite Hz; [rewrite Hz; [reflexivity|]|]; destruct (rest s); simpl in *; auto; lia.
  - destruct n'.
    + rewrite (Hz (S n)); [reflexivity|]. destruct (rest s); simpl in *; auto; lia.
    + rewrite !star_loop_S.
      assert (E : m r s (star_loop greedy r k n) = m r s (star_loop greedy r k n')).
      { apply m_ext. intros s' H. apply Hc in H. apply IHn; lia. }
      rewrite E. reflexivity.
Qed.

(** unfolding of repetition *)
Lemma m_star : forall greedy r s k, consuming r ->
  m (RStar greedy r) s k =
  if greedy then orelse (m r s (fun s' => m (RStar greedy r) s' k)) (k s)
  else orelse (k s) (m r s (fun s' => m (RStar greedy r) s' k)).
Proof.
  intros greedy r s k Hc.
  change (m (RStar greedy r) s k) with (star_loop greedy r k (List.length (rest s)) s).
  rewrite (star_fuel_irrelevant greedy r k Hc _ (S (List.length (rest s))) s) by lia.
  rewrite star_loop_S.
  assert (E : m r s (star_loop greedy r k (List.length (rest s))) =
              m r s (fun s' => m (RStar greedy r) s' k)).
  { apply m_ext. intros s' H. apply Hc in H.
    change (m (RStar greedy r) s' k) with (star_loop greedy r k (List.length (rest s')) s').
    apply star_fuel_irrelevant; auto; lia. }
  rewrite E. reflexivity.
Qed.

(** ** Matches found by [try_at], [at_pos], [scan] *)
Lemma try_at_Mt : forall r adv b t x, try_at r adv b t = Some x ->
  exists s', Mt r (mk b t []) s' /\ t = mtxt x ++ rest s' /\ bef s' = rev (mtxt x) ++ b /\
             mcaps x = caps s' /\ (adv = true -> mtxt x <> []) /\
             Forall (fun gv => infix (snd gv) (mtxt x)) (mcaps x).
Proof.
  unfold try_at. intros r adv b t x H.
  destruct (m r (mk b t []) _) as [s'|] eqn:E; [|discriminate]. inversion H; subst; clear H.
  apply m_sound in E as (s1 & H1 & H2).
  destruct (adv && Nat.eqb (List.length (rest s1)) (List.length t)) eqn:Ea; [discriminate|].
  inversion H2; subst s1; clear H2.
  destruct (Mt_ext _ _ _ H1) as (w & cs & A & B & C & D). simpl in *.
  exists s'. rewrite app_nil_r in C.
  assert (Ew : firstn (List.length t - List.length (rest s')) t = w).
  { rewrite A. apply firstn_app_exact. }
  rewrite Ew. repeat split; auto.
  - intros -> Hw. rewrite Hw in A. simpl in A, Ea. apply Nat.eqb_neq in Ea. apply Ea. rewrite <- A. reflexivity.
  - rewrite C. exact D.
Qed.

Lemma at_pos_In : forall r b t x, In x (at_pos r b t) ->
  exists adv, try_at r adv b t = Some x.
Proof.
  unfold at_pos. intros r b t x H.
  destruct (try_at r false b t) as [y|] eqn:E; [|destruct H].
  destruct (mtxt y) eqn:Ey.
  - destruct (try_at r true b t) as [z|] eqn:E2.
    + destruct H as [<-|[<-|[]]]; eauto.
    + destruct H as [<-|[]]; eauto.
  - destruct H as [<-|[]]; eauto.
Qed.

Lemma at_pos_shape : forall r b t,
  at_pos r b t = [] \/
  (exists x, at_pos r b t = [x] /\ try_at r false b t = Some x) \/
  (exists x y, at_pos r b t = [x; y] /\ mtxt x = [] /\ try_at r false b t = Some x /\ try_at r true b t = Some y).
Proof.
  intros. unfold at_pos.
  destruct (try_at r false b t) as [y|] eqn:E; [|auto].
  destruct (mtxt y) eqn:Ey.
  - destruct (try_at r true b t) as [z|] eqn:E2; [|right; left; eauto].
    right; right. exists y, z. repeat split; auto.
  - right; left. eauto.
Qed.

(** text of a scan: the unmatched characters and the matches partition the text *)
Definition piece_txt (x : char + mtch) : str := match x with inl c => [c] | inr y => mtxt y end.

Lemma last_len_one x : last_len [x] = List.length (mtxt x).
Proof. reflexivity. Qed.
Lemma last_len_two x y : last_len [x; y] = List.length (mtxt y).
Proof. reflexivity. Qed.

Lemma scan_skip : forall r w b t, scan r (List.length w) b (w ++ t) = scan r 0 (rev w ++ b) t.
Proof.
  induction w; intros b t.
  - reflexivity.
  - simpl List.length. simpl app at 1. simpl. rewrite IHw. simpl. rewrite <- app_assoc. reflexivity.
Qed.

Lemma scan_none : forall r b c t, at_pos r b (c :: t) = [] ->
  scan r 0 b (c :: t) = inl c :: scan r 0 (c :: b) t.
Proof. intros. simpl. rewrite H. reflexivity. Qed.

Lemma scan_one : forall r b w t x, at_pos r b (w ++ t) = [x] -> mtxt x = w -> w <> [] ->
  scan r 0 b (w ++ t) = inr x :: scan r 0 (rev w ++ b) t.
Proof.
  intros r b w t x H Hx Hw. destruct w as [|c w]; [congruence|].
  simpl. simpl app in H. rewrite H. simpl. rewrite last_len_one, Hx. simpl.
  rewrite scan_skip. rewrite <- app_assoc. reflexivity.
Qed.

Lemma scan_two : forall r b w t x y, at_pos r b (w ++ t) = [x; y] -> mtxt y = w -> w <> [] ->
  scan r 0 b (w ++ t) = inr x :: inr y :: scan r 0 (rev w ++ b) t.
Proof.
  intros r b w t x y H Hx Hw. destruct w as [|c w]; [congruence|].
  simpl. simpl app in H. rewrite H. simpl. rewrite last_len_two, Hx. simpl.
  rewrite scan_skip. rewrite <- app_assoc. reflexivity.
Qed.

Lemma scan_empty_match : forall r b c t x, at_pos r b (c :: t) = [x] -> mtxt x = [] ->
  scan r 0 b (c :: t) = inr x :: inl c :: scan r 0 (c :: b) t.
Proof. intros. simpl. rewrite H. simpl. rewrite last_len_one, H0. reflexivity. Qed.

Lemma scan_end : forall r b, scan r 0 b [] = map inr (at_pos r b []).
Proof. reflexivity. Qed.

(** every element of a scan is a match somewhere in the text; the pieces partition the text *)
Lemma scan_partition : forall n r b t, (List.length t <= n)%nat ->
  flat_map piece_txt (scan r 0 b t) = t.
Proof.
  induction n; intros r b t Hn.
  - destruct t; [|simpl in Hn; lia].
    rewrite scan_end.
    assert (HE : forall x, In x (at_pos r b []) -> mtxt x = []).
    { intros x Hx. apply at_pos_In in Hx as [adv Hx].
      apply try_at_Mt in Hx as (s' & _ & E & _). destruct (mtxt x); [reflexivity|discriminate]. }
    revert HE. generalize (at_pos r b []). induction l as [|x l IH]; intro HE; [reflexivity|].
    simpl. rewrite (HE x) by (left; reflexivity). apply IH. intros; apply HE; right; auto.
  - destruct t as [|c t]; [apply IHn; simpl; lia|].
    destruct (at_pos_shape r b (c :: t)) as [E|[(x & E & Et)|(x & y & E & Ex & _ & Et)]].
    + rewrite (scan_none r b c t E). simpl. rewrite IHn; [reflexivity | simpl in Hn; lia].
    + apply try_at_Mt in Et as (s' & _ & Et & _).
      destruct (mtxt x) as [|d w] eqn:Ex.
      * rewrite (scan_empty_match r b c t x E Ex). simpl. rewrite Ex. simpl.
        rewrite IHn; [reflexivity | simpl in Hn; lia].
      * rewrite Et in E |- *. rewrite (scan_one r b (d :: w) (rest s') x E Ex) by discriminate.
        cbn [flat_map piece_txt]. rewrite Ex. rewrite IHn; [reflexivity|].
        rewrite Et in Hn. rewrite app_length in Hn. simpl in Hn. lia.
    + apply try_at_Mt in Et as (s' & _ & Et & _ & _ & Hne & _).
      specialize (Hne eq_refl).
      rewrite Et in E |- *. rewrite (scan_two r b (mtxt y) (rest s') x y E eq_refl Hne).
      cbn [flat_map piece_txt]. rewrite Ex. simpl app at 1. rewrite IHn; [reflexivity|].
      rewrite Et in Hn. rewrite app_length in Hn. destruct (mtxt y); [congruence|]. simpl in Hn. lia.
Qed.

Lemma scan_In : forall n r b t x, (List.length t <= n)%nat -> In (inr x) (scan r 0 b t) ->
  exists adv b' t', try_at r adv b' t' = Some x /\ exists u, t = u ++ t' /\ b' = rev u ++ b.
Proof.
  induction n; intros r b t x Hn H.
  - destruct t; [|simpl in Hn; lia]. rewrite scan_end in H. apply in_map_iff in H as (y & Ey & H).
    inversion Ey; subst. apply at_pos_In in H as [adv H]. exists adv, b, [].
    split; [exact H|]. exists []; auto.
  - destruct t as [|c t].
    { apply (IHn r b [] x); [simpl; lia | exact H]. }
    destruct (at_pos_shape r b (c :: t)) as [E|[(y & E & Et)|(y & z & E & Ey & Et0 & Et)]].
    + rewrite (scan_none r b c t E) in H. destruct H as [H|H]; [discriminate|].
      apply IHn in H as (adv & b' & t' & H1 & u & -> & ->); [|simpl in Hn; lia].
      exists adv, (rev u ++ c :: b), t'. split; [exact H1|]. exists (c :: u).
      split; [reflexivity|]. simpl. rewrite <- app_assoc. reflexivity.
    + destruct (try_at_Mt _ _ _ _ _ Et) as (s' & _ & Et' & _).
      destruct (mtxt y) as [|d w] eqn:Ex.
      * rewrite (scan_empty_match r b c t y E Ex) in H. destruct H as [H|[H|H]]; [|discriminate|].
        -- inversion H; subst. exists false, b, (c :: t). split; [exact Et|]. exists []; auto.
        -- apply IHn in H as (adv & b' & t' & H1 & u & -> & ->); [|simpl in Hn; lia].
           exists adv, (rev u ++ c :: b), t'. split; [exact H1|]. exists (c :: u).
           split; [reflexivity|]. simpl. rewrite <- app_assoc. reflexivity.
      * rewrite Et' in E, H. rewrite (scan_one r b (d :: w) (rest s') y E Ex) in H by discriminate.
        destruct H as [H|H].
        -- inversion H; subst. exists false, b, (c :: t). split; [exact Et|]. exists []; auto.
        -- apply IHn in H as (adv & b' & t' & H1 & u & E1 & ->);
             [|rewrite Et' in Hn; rewrite app_length in Hn; simpl in Hn; lia].
           exists adv, (rev u ++ rev (d :: w) ++ b), t'. split; [exact H1|]. exists ((d :: w) ++ u).
           split; [rewrite Et', E1, app_assoc; reflexivity | rewrite rev_app_distr, app_assoc; reflexivity].
    + destruct (try_at_Mt _ _ _ _ _ Et) as (s' & _ & Et' & _ & _ & Hne & _).
      specialize (Hne eq_refl).
      rewrite Et' in E, H. rewrite (scan_two r b (mtxt z) (rest s') y z E eq_refl Hne) in H.
      destruct H as [H|[H|H]].
      * inversion H; subst. exists false, b, (c :: t). split; [exact Et0|]. exists []; auto.
      * inversion H; subst. exists true, b, (c :: t). split; [exact Et|]. exists []; auto.
      * assert (Hl : (List.length (rest s') <= n)%nat).
        { rewrite Et' in Hn. rewrite app_length in Hn. destruct (mtxt z); [congruence|]. simpl in Hn. lia. }
        apply IHn in H as (adv & b' & t' & H1 & u & E1 & ->); [|exact Hl].
        exists adv, (rev u ++ rev (mtxt z) ++ b), t'. split; [exact H1|]. exists (mtxt z ++ u).
        split; [rewrite Et', E1, app_assoc; reflexivity | rewrite rev_app_distr, app_assoc; reflexivity].
Qed.

Lemma finditer_In : forall r t x, In x (finditer r t) ->
  exists adv b' t', try_at r adv b' t' = Some x /\ t = rev b' ++ t'.
Proof.
  unfold finditer. intros r t x H. apply in_flat_map in H as (y & H1 & H2).
  destruct y; [destruct H2|]. destruct H2 as [->|[]].
  apply (scan_In (List.length t)) in H1 as (adv & b' & t' & H1 & u & -> & ->); [|lia].
  exists adv, (rev u ++ []), t'. split; [exact H1|].
  rewrite app_nil_r, rev_involutive. reflexivity.
Qed.

(** ** Captures that are strictly shorter than the match *)
Lemma Mt_cap_le : forall r s s' g, Mt r s s' ->
  cap g (caps s') = cap g (caps s) \/
  exists v, cap g (caps s') = Some v /\ (List.length v + List.length (rest s') <= List.length (rest s))%nat.
Proof.
  intros r s s' g H. apply Mt_ext in H as (w & cs & A & _ & C & F). rewrite A, C, app_length.
  clear A C. induction cs as [|[h v] cs IH]; [left; reflexivity|].
  inversion F; subst. simpl. destruct (gname_beq g h).
  - right. exists v. split; [reflexivity|]. apply infix_length in H1. simpl in H1. lia.
  - apply IH; assumption.
Qed.

Fixpoint strict (r : regex) (g : gname) : bool :=
  match r with
  | RSeq a b => (nonnull a && negb (may a g)) || (nonnull b && negb (may b g)) || (strict a g && strict b g)
  | RAlt a b => strict a g && strict b g
  | RGrp h r0 => negb (gname_beq g h) && strict r0 g
  | RStar _ r0 => negb (may r0 g)
  | _ => true
  end.

Lemma Mt_strict : forall r s s' g, Mt r s s' -> strict r g = true ->
  cap g (caps s') = cap g (caps s) \/
  exists v, cap g (caps s') = Some v /\ (List.length v + List.length (rest s') < List.length (rest s))%nat.
Proof.
  intros r s s' g H. induction H; simpl; intro Hs; auto.
  - assert (L1 := Mt_length _ _ _ H). assert (L2 := Mt_length _ _ _ H0).
    apply orb_true_iff in Hs as [Hs|Hs].
    + apply orb_true_iff in Hs as [Hs|Hs]; apply andb_true_iff in Hs as [Hn Hm];
        apply negb_true_iff in Hm.
      * assert (L3 := nonnull_consuming _ Hn _ _ H).
        assert (E := Mt_may _ _ _ _ H Hm).
        destruct (Mt_cap_le _ _ _ g H0) as [E2|(v & E2 & Hv)].
        -- left. rewrite E2, E. reflexivity.
        -- right. exists v. split; [exact E2 | lia].
      * assert (L3 := nonnull_consuming _ Hn _ _ H0).
        assert (E := Mt_may _ _ _ _ H0 Hm).
        destruct (Mt_cap_le _ _ _ g H) as [E2|(v & E2 & Hv)].
        -- left. rewrite E, E2. reflexivity.
        -- right. exists v. split; [rewrite E; exact E2 | lia].
    + apply andb_true_iff in Hs as [H1 H2].
      destruct (IHMt2 H2) as [E|(v & E & Hv)].
      * destruct (IHMt1 H1) as [E2|(v & E2 & Hv)].
        -- left. rewrite E, E2. reflexivity.
        -- right. exists v. split; [rewrite E; exact E2 | lia].
      * right. exists v. split; [exact E | lia].
  - apply andb_true_iff in Hs as [H1 _]. auto.
  - apply andb_true_iff in Hs as [_ H1]. auto.
  - apply negb_true_iff in Hs. left.
    rewrite (Mt_may _ _ _ g H0 Hs), (Mt_may _ _ _ g H Hs). reflexivity.
  - apply andb_true_iff in Hs as [H1 H2]. apply negb_true_iff in H1. rewrite H1. auto.
  - left. apply eat_ext in H0 as (_ & _ & E & _). rewrite E. reflexivity.
Qed.

Lemma finditer_strict : forall r t x g v, In x (finditer r t) -> strict r g = true ->
  group g x = Some v -> (List.length v < List.length t)%nat.
Proof.
  intros r t x g v H Hs Hg. apply finditer_In in H as (adv & b' & t' & H & ->).
  apply try_at_Mt in H as (s' & HM & E & _ & C & _ & _).
  unfold group in Hg. rewrite C in Hg.
  destruct (Mt_strict _ _ _ g HM Hs) as [E2|(u & E2 & Hu)].
  - rewrite E2 in Hg. discriminate.
  - rewrite Hg in E2. inversion E2; subst u. simpl in Hu. rewrite app_length. lia.
Qed.

(** ** Groups that capture at least one character *)
Fixpoint capne (r : regex) (g : gname) : bool :=
  match r with
  | RSeq a b | RAlt a b => capne a g && capne b g
  | RGrp h r0 => (negb (gname_beq g h) || nonnull r0) && capne r0 g
  | RStar _ r0 => capne r0 g
  | _ => true
  end.

Lemma Mt_capne : forall r s s' g, Mt r s s' -> capne r g = true ->
  cap g (caps s) <> Some [] -> cap g (caps s') <> Some [].
Proof.
  intros r s s' g H. induction H; simpl; intros Hn Hs; auto.
  - apply andb_true_iff in Hn as [H1 H2]. auto.
  - apply andb_true_iff in Hn as [H1 H2]. auto.
  - apply andb_true_iff in Hn as [H1 H2]. auto.
  - apply andb_true_iff in Hn as [H1 H2]. destruct (gname_beq g g0) eqn:E; auto.
    simpl in H1. assert (L := nonnull_consuming _ H1 _ _ H).
    intro E2. inversion E2 as [E3]. apply (f_equal (@List.length _)) in E3.
    rewrite firstn_length in E3. simpl in E3. lia.
  - apply eat_ext in H0 as (_ & _ & E & _). rewrite E. exact Hs.
Qed.

Lemma finditer_capne : forall r t x g, In x (finditer r t) -> capne r g = true ->
  group g x <> Some [].
Proof.
  intros r t x g H Hs. apply finditer_In in H as (adv & b' & t' & H & ->).
  apply try_at_Mt in H as (s' & HM & E & _ & C & _ & _).
  unfold group. rewrite C. eapply Mt_capne; eauto. discriminate.
Qed.
