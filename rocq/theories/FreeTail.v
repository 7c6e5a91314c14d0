(** * Any text below a document

    A document of unambiguous blocks, an empty line, and any text at all: what the regular
    expressions find in the text does not depend on what stands above it. *)
From Coq Require Import String List Arith NArith ZArith Bool Lia.
From Verif Require Import PyStr PyStrFacts Utils Res GNames Regex RegexRun RegexFacts Rules DocTree CreoleParser ParserFacts HtmlEmitter EmitterFacts Spec Spec4 Spec5 InlineRun InlineParse BlockRun BlockHits BlockParse DocParse TableHits Spec33 TableDoc Spec36 LayoutDoc LiftDoc Safety TablePad HtmlToolsFacts.
Import ListNotations.
Open Scope N_scope.

(** ** Matching does not look behind the line *)
Fixpoint near (any : bool) (r : regex) : bool :=
  match r with
  | REps | RChr _ | RBack _ | RBol | REol => true
  | RSeq a b | RAlt a b => near any a && near any b
  | RStar _ a | RNotAhead a => near any a
  | RGrp _ a => any && near any a
  | RBos => false
  | RBehind _ p => negb (p 10)
  end.
Section Near.
  Variables B1 B2 : str.
  Hypothesis HB : B1 = B2 \/ bol B1 = true /\ bol B2 = true.
  Variable n : nat.
  (** what is known of the groups, if there are none in the expression *)
  Variable any : bool.
  Variable C : list (gname * str) -> Prop.
  Hypothesis HC : any = true -> forall cs, C cs.
  Definition twin (s1 s2 : st) : Prop := exists x, bef s1 = x ++ B1 /\ bef s2 = x ++ B2 /\ rest s1 = rest s2 /\ caps s1 = caps s2 /\ (List.length (rest s1) <= n)%nat /\ C (caps s1).
  Definition opt_twin (Q : st -> st -> Prop) (o1 o2 : option st) : Prop := match o1, o2 with None, None => True | Some a, Some b => Q a b | _, _ => False end.
  Lemma opt_orelse : forall Q a1 a2 b1 b2, opt_twin Q a1 a2 -> opt_twin Q b1 b2 -> opt_twin Q (orelse a1 b1) (orelse a2 b2).
  Proof. intros Q [a1|] [a2|] b1 b2 H1 H2; try destruct H1; [exact H1|exact H2]. Qed.
  Lemma eat_twin : forall w s1 s2, twin s1 s2 -> match eat w s1, eat w s2 with None, None => True | Some a, Some b => twin a b | _, _ => False end.
  Proof.
    induction w as [|c w IH]; intros [b1 t1 c1] [b2 t2 c2] (x & E1 & E2 & E3 & E4 & E5 & E6); cbn [bef rest caps] in *; subst; cbn [eat rest bef caps].
    - exists x. cbn [bef rest caps]. auto 10.
    - destruct t2 as [|d t]; [exact Logic.I|]. destruct (c =? d); [|exact Logic.I]. apply IH. exists (d :: x). cbn [bef rest caps]. cbn [List.length] in E5. repeat split; auto; lia.
  Qed.
  Lemma par : forall r, near any r = true -> forall Q k1 k2, (forall s1 s2, twin s1 s2 -> opt_twin Q (k1 s1) (k2 s2)) ->
    forall s1 s2, twin s1 s2 -> opt_twin Q (m r s1 k1) (m r s2 k2).
  Proof.
    induction r as [|p|a IHa b IHb|a IHa b IHb|g r IH|g r IH|g| | | |neg p|r IH]; intros Hr Q k1 k2 Hk s1 s2 Hs; cbn [near] in Hr.
    - apply Hk. exact Hs.
    - destruct s1 as [b1 t1 c1], s2 as [b2 t2 c2]. destruct Hs as (x & E1 & E2 & E3 & E4 & E5 & E6). cbn [bef rest caps] in *. subst. cbn [m rest bef caps]. destruct t2 as [|d t]; [exact Logic.I|]. destruct (p d); [|exact Logic.I].
      apply Hk. exists (d :: x). cbn [bef rest caps List.length] in *. repeat split; auto; lia.
    - apply andb_true_iff in Hr as [Ha Hb]. cbn [m]. apply IHa; [exact Ha| |exact Hs]. intros u1 u2 Hu. apply IHb; assumption.
    - apply andb_true_iff in Hr as [Ha Hb]. cbn [m]. apply opt_orelse; [apply IHa|apply IHb]; assumption.
    - cbn [m]. assert (ER : rest s1 = rest s2) by (destruct Hs as (x & _ & _ & E & _ & _); exact E). rewrite ER. generalize (List.length (rest s2)). intro f. clear ER. revert s1 s2 Hs.
      induction f as [|f IHf]; intros s1 s2 Hs; [apply Hk; exact Hs|]. destruct g; apply opt_orelse; try (apply Hk; exact Hs); apply IH; assumption.
    - apply andb_true_iff in Hr as [Hany Hr]. cbn [m]. apply IH; [exact Hr| |exact Hs]. intros [b1 t1 c1] [b2 t2 c2] (x & E1 & E2 & E3 & E4 & E5 & E6). cbn [bef rest caps] in *. subst. destruct Hs as (y & _ & _ & -> & _ & _). apply Hk. exists x. cbn [bef rest caps]. repeat split; auto.
    - cbn [m]. assert (EC : caps s1 = caps s2) by (destruct Hs as (x & _ & _ & _ & E & _); exact E). rewrite EC. destruct (cap g (caps s2)) as [w|]; [|exact Logic.I]. pose proof (eat_twin w s1 s2 Hs) as T.
      destruct (eat w s1), (eat w s2); [apply Hk; exact T|destruct T|destruct T|exact Logic.I].
    - destruct s1 as [b1 t1 c1], s2 as [b2 t2 c2]. pose proof Hs as (x & E1 & E2 & E3 & E4 & E5 & E6). cbn [bef rest caps] in *. rewrite !m_bol. subst.
      destruct x as [|d x]; cbn [app bol]; [|destruct (d =? 10); [apply Hk; exact Hs|exact Logic.I]]. assert (EB : bol B1 = bol B2) by (destruct HB as [HB'|[H1 H2]]; [rewrite HB'; reflexivity|congruence]). rewrite EB. destruct (bol B2); [apply Hk; exact Hs|exact Logic.I].
    - destruct s1 as [b1 t1 c1], s2 as [b2 t2 c2]. pose proof Hs as (x & E1 & E2 & E3 & E4 & E5 & E6). cbn [bef rest caps] in *. subst. rewrite !m_eol. destruct (eol t2); [apply Hk; exact Hs|exact Logic.I].
    - discriminate Hr.
    - apply negb_true_iff in Hr. destruct s1 as [b1 t1 c1], s2 as [b2 t2 c2]. pose proof Hs as (x & E1 & E2 & E3 & E4 & E5 & E6). cbn [bef rest caps] in *. subst. cbn [m bef].
      destruct x as [|d x]; cbn [app].
      + destruct HB as [HB'|[H1 H2]].
        * assert (G : forall B B' : str, B = B' -> forall o1 o2 : option st, opt_twin Q o1 o2 -> opt_twin Q (match B with [] => if neg then o1 else None | d :: _ => if xorb neg (p d) then o1 else None end) (match B' with [] => if neg then o2 else None | d :: _ => if xorb neg (p d) then o2 else None end)).
          { intros [|d B] ? <- o1 o2 Ho; [destruct neg; [exact Ho|exact Logic.I]|]. destruct (xorb neg (p d)); [exact Ho|exact Logic.I]. }
          exact (G B1 B2 HB' _ _ (Hk _ _ Hs)).
        * assert (N : forall B, bol B = true -> forall o : option st, match B with [] => if neg then o else None | d :: _ => if xorb neg (p d) then o else None end = if neg then o else None).
          { intros [|d B] HD o; [reflexivity|]. cbn [bol] in HD. apply N.eqb_eq in HD. subst d. rewrite Hr. destruct neg; reflexivity. }
          rewrite (N B1 H1), (N B2 H2). destruct neg; [apply Hk; exact Hs|exact Logic.I].
      + destruct (xorb neg (p d)); [apply Hk; exact Hs|exact Logic.I].
    - cbn [m]. pose proof (IH Hr (fun _ _ => True) (fun s' => Some s') (fun s' => Some s') (fun _ _ _ => Logic.I) s1 s2 Hs) as T.
      destruct (m r s1 (fun s' => Some s')), (m r s2 (fun s' => Some s')); try destruct T; [exact Logic.I|apply Hk; exact Hs].
  Qed.
End Near.
Lemma try_near : forall r B1 B2 x adv t, near true r = true -> bol B1 = true -> bol B2 = true -> try_at r adv (x ++ B1) t = try_at r adv (x ++ B2) t.
Proof.
  intros r B1 B2 x adv t Hr H1 H2. unfold try_at. set (tw := twin B1 B2 (List.length t) (fun _ => True)).
  pose proof (par B1 B2 (or_intror (conj H1 H2)) (List.length t) true (fun _ => True) (fun _ _ => Logic.I) r Hr tw
    (fun s' => if adv && Nat.eqb (List.length (rest s')) (List.length t) then None else Some s') (fun s' => if adv && Nat.eqb (List.length (rest s')) (List.length t) then None else Some s')) as P.
  assert (K : forall s1 s2, tw s1 s2 -> opt_twin tw (if adv && Nat.eqb (List.length (rest s1)) (List.length t) then None else Some s1) (if adv && Nat.eqb (List.length (rest s2)) (List.length t) then None else Some s2)).
  { intros s1 s2 Hs. pose proof Hs as (y & _ & _ & -> & _ & _). destruct (adv && _); [exact Logic.I|exact Hs]. }
  specialize (P K (mk (x ++ B1) t []) (mk (x ++ B2) t [])). cbv beta in P. assert (T0 : tw (mk (x ++ B1) t []) (mk (x ++ B2) t [])) by (exists x; cbn [bef rest caps]; auto 10). specialize (P T0). clear K T0.
  destruct (m r (mk (x ++ B1) t []) _) as [s1|], (m r (mk (x ++ B2) t []) _) as [s2|]; try destruct P; [|reflexivity]. destruct H as (_ & _ & -> & -> & _). reflexivity.
Qed.
Lemma scan_near : forall r B1 B2, near true r = true -> bol B1 = true -> bol B2 = true -> forall t n x, scan r n (x ++ B1) t = scan r n (x ++ B2) t.
Proof.
  intros r B1 B2 Hr H1 H2. assert (A : forall x t, at_pos r (x ++ B1) t = at_pos r (x ++ B2) t).
  { intros x t. unfold at_pos. rewrite !(try_near r B1 B2 x _ t Hr H1 H2). reflexivity. }
  induction t as [|c t IH]; intros [|n] x; cbn [scan]; try reflexivity.
  - rewrite A. reflexivity.
  - rewrite A. pose proof (IH O (c :: x)) as E0. cbn [app] in E0. destruct (last_len _) as [|k]; [rewrite E0; reflexivity|]. pose proof (IH k (c :: x)) as E1. cbn [app] in E1. rewrite E1. reflexivity.
  - exact (IH n (c :: x)).
Qed.
Lemma block_near : forall blog, near true (block_re blog) = true. Proof. intros []; vm_compute; reflexivity. Qed.
Lemma item_near : near true item_re = true. Proof. vm_compute. reflexivity. Qed.

(** ** an empty line above any text *)
Lemma orelse_nil : forall (A : Type) (o : option A), orelse o None = o.
Proof. intros A [x|]; reflexivity. Qed.
Lemma sps_here : forall c X b cs k, is_space c = false -> m sps (mk b (c :: X) cs) k = k (mk b (c :: X) cs).
Proof. intros c X b cs k H. unfold sps, sp. rewrite m_star_chr, H. reflexivity. Qed.
Lemma sps_nl : forall c X b cs k, is_space c = false -> k (mk b (10 :: c :: X) cs) = None -> m sps (mk b (10 :: c :: X) cs) k = k (mk (10 :: b) (c :: X) cs).
Proof. intros c X b cs k H Hk. unfold sps, sp. rewrite m_star_chr. change (is_space 10) with true. cbv iota. rewrite m_star_chr, H, Hk. apply orelse_nil. Qed.
Lemma blanks_eol : forall (p : N -> bool) t, p 10 = false -> (exists z T, t = z ++ T /\ forall b cs k, m (RSeq (RStar true (RChr p)) REol) (mk b t cs) k = k (mk (rev z ++ b) T cs)) \/
  (forall b cs k, m (RSeq (RStar true (RChr p)) REol) (mk b t cs) k = None).
Proof.
  intros p t Hp. induction t as [|c t IH].
  - left. exists [], []. split; [reflexivity|]. intros b cs k. rewrite m_seq, m_star_nil. reflexivity.
  - destruct (p c) eqn:Pc.
    + assert (N : (c =? 10) = false) by (destruct (N.eqb_spec c 10); [congruence|reflexivity]).
      assert (G : forall b cs k, m (RSeq (RStar true (RChr p)) REol) (mk b (c :: t) cs) k = m (RSeq (RStar true (RChr p)) REol) (mk (c :: b) t cs) k).
      { intros b cs k. rewrite !m_seq, m_star_chr, Pc. rewrite m_eol. cbn [eol]. rewrite N. destruct (m _ _ _); reflexivity. }
      destruct IH as [(z & T & -> & E)|E]; [left; exists (c :: z), T; split; [reflexivity|]; intros b cs k; rewrite G, E; cbn [rev]; rewrite <- app_assoc; reflexivity|right; intros; rewrite G; apply E].
    + destruct (c =? 10) eqn:N.
      * left. exists [], (c :: t). split; [reflexivity|]. intros b cs k. rewrite m_seq, m_star_chr, Pc, m_eol. cbn [eol]. rewrite N. reflexivity.
      * right. intros b cs k. rewrite m_seq, m_star_chr, Pc, m_eol. cbn [eol]. rewrite N. reflexivity.
Qed.
Lemma same_twin : forall C n s1 s2, twin [] [] n C s1 s2 -> s1 = s2 /\ (List.length (rest s1) <= n)%nat /\ C (caps s1).
Proof. intros C n [b1 t1 c1] [b2 t2 c2] (x & E1 & E2 & E3 & E4 & E5). cbn [bef rest caps] in *. subst. auto. Qed.
Lemma twin_same : forall (C : list (gname * str) -> Prop) n s, (List.length (rest s) <= n)%nat -> C (caps s) -> twin [] [] n C s s.
Proof. intros C n s H1 H2. exists (bef s). rewrite app_nil_r. auto 10. Qed.
(** two ends of the same search *)
Lemma two_ends : forall r n (C : list (gname * str) -> Prop) any Q k1 k2 s, (any = true -> forall cs, C cs) -> near any r = true ->
  (forall s', (List.length (rest s') <= n)%nat -> C (caps s') -> opt_twin Q (k1 s') (k2 s')) -> (List.length (rest s) <= n)%nat -> C (caps s) -> opt_twin Q (m r s k1) (m r s k2).
Proof.
  intros r n C any Q k1 k2 s HC Hr Hk H1 H2. apply (par [] [] (or_introl eq_refl) n any C HC r Hr); [|apply twin_same; assumption].
  intros s1 s2 T. destruct (same_twin _ _ _ _ T) as (<- & A & B). apply Hk; assumption.
Qed.
Definition below (X : str) (P : list (gname * str) -> list (gname * str) -> Prop) (s1 s2 : st) : Prop :=
  bef s1 = bef s2 /\ rest s1 = rest s2 /\ (List.length (rest s1) < List.length X)%nat /\ P (caps s1) (caps s2).
Lemma fadv_less : forall X s, (List.length (rest s) <= List.length X)%nat -> fadv (10 :: X) s = Some s.
Proof. intros X s H. unfold fadv. destruct (Nat.eqb_spec (List.length (rest s)) (List.length (10 :: X))) as [E|E]; [cbn [List.length] in E; lia|reflexivity]. Qed.
Lemma table_gap : forall X b, bol b = true -> opt_twin (below (124 :: X) eq) (m r_table (mk b (10 :: 124 :: X) []) (fadv (10 :: 124 :: X))) (m r_table (mk (10 :: b) (124 :: X) []) fin).
Proof.
  intros X b Hb. unfold r_table, seqs. rewrite !m_seq, !m_bol, Hb. cbn [bol]. change (10 =? 10) with true. cbv iota. rewrite !m_seq. rewrite (sps_here 124) by reflexivity. rewrite sps_nl; [|reflexivity|].
  2:{ rewrite m_seq, m_grp, m_seq. reflexivity. }
  rewrite !m_seq, !m_grp, !m_seq. unfold c1. rewrite !m_chr. change (124 =? 124) with true. cbv iota.
  apply (two_ends _ (List.length X) (fun _ => True) true); [auto|vm_compute; reflexivity| |reflexivity|exact Logic.I].
  intros s' L _. apply (two_ends _ (List.length X) (fun _ => True) true); [auto|vm_compute; reflexivity| |exact L|exact Logic.I].
  intros s2 L2 _. rewrite fadv_less by (cbn [List.length]; lia). split; [reflexivity|]. split; [reflexivity|]. split; [cbn [List.length]; lia|reflexivity].
Qed.
Definition sep_caps (c1 c2 : list (gname * str)) : Prop := exists v1 v2, c1 = [(G_separator, v1)] /\ c2 = [(G_separator, v2)].
Lemma sep_gap : forall X b, bol b = true -> opt_twin (below ($ "----" ++ X) sep_caps) (m r_separator (mk b (10 :: $ "----" ++ X) []) (fadv (10 :: $ "----" ++ X))) (m r_separator (mk (10 :: b) ($ "----" ++ X) []) fin).
Proof.
  intros X b Hb. change ($ "----" ++ X) with (45 :: 45 :: 45 :: 45 :: X). unfold r_separator, seqs. rewrite (m_seq (RGrp _ _)), (m_seq (RGrp _ _)), !m_grp, !m_seq, !m_bol, Hb. cbn [bol]. change (10 =? 10) with true. cbv iota. rewrite !m_seq.
  rewrite (sps_here 45) by reflexivity. rewrite sps_nl by reflexivity.
  change (m (lit ($ "----")) (mk (10 :: b) (45 :: 45 :: 45 :: 45 :: X) []) ?k) with (k (mk (45 :: 45 :: 45 :: 45 :: 10 :: b) X [])). cbn [bef rest caps].
  destruct (blanks_eol (fun c => (c =? 32) || (c =? 9)) X eq_refl) as [(z & T & EX & E)|E]; [|rewrite !E; exact Logic.I]. rewrite !E. rewrite fadv_less by (rewrite EX; cbn [rest List.length]; rewrite app_length; lia).
  split; [reflexivity|]. split; [reflexivity|]. split; [cbn [rest]; rewrite EX; cbn [List.length]; rewrite app_length; lia|]. eexists. eexists. split; reflexivity.
Qed.
Definition list_caps (c : N) (c1 c2 : list (gname * str)) : Prop := exists v, c1 = [(G_list, 10 :: c :: v)] /\ c2 = [(G_list, c :: v)].
Lemma firstn_more : forall (c : N) X n, (n <= List.length X)%nat -> firstn (List.length (c :: X) - n) (c :: X) = c :: firstn (List.length X - n) X.
Proof. intros c X n H. replace (List.length (c :: X) - n)%nat with (S (List.length X - n)) by (cbn [List.length]; lia). reflexivity. Qed.
Lemma list_gap : forall c d X b, bullet c = true -> bullet d = false -> bol b = true ->
  opt_twin (below (c :: d :: X) (list_caps c)) (m r_list (mk b (10 :: c :: d :: X) []) (fadv (10 :: c :: d :: X))) (m r_list (mk (10 :: b) (c :: d :: X) []) fin).
Proof.
  intros c d X b Hc Hd Hb. assert (Sc : is_space c = false) by (unfold bullet in Hc; apply orb_true_iff in Hc as [Hc|Hc]; apply N.eqb_eq in Hc; subst c; reflexivity).
  unfold r_list, seqs. rewrite !m_grp. rewrite !m_seq, !m_bol, Hb. cbn [bol]. change (10 =? 10) with true. cbv iota. rewrite !m_seq. rewrite (sps_here c) by exact Sc. rewrite sps_nl; [|exact Sc|].
  2:{ rewrite m_seq, m_alt, !m_seq. reflexivity. }
  rewrite !m_seq, !m_alt, !m_seq. unfold c1. rewrite !m_chr.
  assert (Nd : negb (is_bullet d) = true) by (apply negb_true_iff; exact Hd).
  assert (G : forall o : option st, orelse (if 42 =? c then o else None) (if 35 =? c then o else None) = o).
  { intro o. unfold bullet in Hc. apply orb_true_iff in Hc as [Hc|Hc]; apply N.eqb_eq in Hc; subst c; [apply orelse_nil|reflexivity]. }
  rewrite Nd. cbv iota. rewrite !G. clear G.
  apply (two_ends _ (List.length X) (fun cs => cs = []) false); [discriminate|vm_compute; reflexivity| |reflexivity|reflexivity].
  intros s' L EC. rewrite EC. rewrite fadv_less by (cbn [rest List.length]; lia). split; [reflexivity|]. split; [reflexivity|]. split; [cbn [rest List.length]; lia|].
  cbn [caps]. rewrite (firstn_more 10) by (cbn [List.length]; lia). rewrite (firstn_more c) by (cbn [List.length]; lia). exists (firstn (List.length (d :: X) - List.length (rest s')) (d :: X)). auto.
Qed.
(** the items of such a list *)
Lemma scan_step : forall r b c t y n, at_pos r b (c :: t) = [y] -> List.length (mtxt y) = S n -> scan r 0 b (c :: t) = inr y :: scan r n (c :: b) t.
Proof. intros r b c t y n E L. cbn [scan]. rewrite E. cbn [last_len rev app]. unfold last_len. cbn [rev app]. rewrite L. reflexivity. Qed.
Lemma item_gap : forall c L, bullet c = true -> opt_twin (fun s1 s2 => rest s1 = rest s2 /\ caps s1 = caps s2 /\ (List.length (rest s1) <= List.length L)%nat)
  (m item_re (mk [] (10 :: c :: L) []) fin) (m item_re (mk [] (c :: L) []) fin).
Proof.
  intros c L Hc. assert (Sc : is_space c = false) by (unfold bullet in Hc; apply orb_true_iff in Hc as [Hc|Hc]; apply N.eqb_eq in Hc; subst c; reflexivity).
  unfold item_re, seqs. rewrite !m_seq, !m_bol. cbn [bol]. cbv iota. rewrite !m_seq. rewrite (sps_here c) by exact Sc. rewrite sps_nl; [|exact Sc|].
  2:{ rewrite m_seq, m_grp, m_seq, m_grp. unfold RPlus. rewrite m_seq. reflexivity. }
  rewrite !m_seq, !m_grp, !m_seq, !m_grp. unfold RPlus. rewrite !m_seq, !m_chr. change (is_bullet c) with (bullet c). rewrite Hc.
  assert (HB : [10] = [] \/ bol [10] = true /\ bol [] = true) by (right; auto).
  apply (par [10] [] HB (List.length L) true (fun _ => True) (fun _ _ => Logic.I)); [vm_compute; reflexivity| |exists [c]; cbn [bef rest caps]; auto 10].
  intros s1 s2 (x & E1 & E2 & E3 & E4 & E5 & _). rewrite E3, E4. apply (par [10] [] HB (List.length L) true (fun _ => True) (fun _ _ => Logic.I)); [vm_compute; reflexivity| |exists x; cbn [bef rest caps]; rewrite <- ?E3; auto 10].
  intros s3 s4 (y & F1 & F2 & F3 & F4 & F5 & _). rewrite F3, F4. apply (par [10] [] HB (List.length L) true (fun _ => True) (fun _ _ => Logic.I)); [vm_compute; reflexivity| |exists y; cbn [bef rest caps]; rewrite <- ?F3; auto 10].
  intros s5 s6 (z & G1 & G2 & G3 & G4 & G5 & _). cbn [fin opt_twin]. rewrite <- G3. auto.
Qed.
Lemma at_pos_some : forall r b t s', m r (mk b t []) fin = Some s' -> (List.length (rest s') < List.length t)%nat -> at_pos r b t = [mkm (firstn (List.length t - List.length (rest s')) t) (caps s')].
Proof.
  intros r b t s' H L. unfold at_pos, try_at. cbn [andb]. change (fun s'0 : st => Some s'0) with fin. rewrite H. cbn [mtxt].
  destruct (List.length t - List.length (rest s'))%nat as [|n] eqn:E; [lia|]. destruct t as [|c t]; [cbn [List.length] in L; lia|]. reflexivity.
Qed.
Lemma scan_some : forall r b c t s', m r (mk b (c :: t) []) fin = Some s' -> (List.length (rest s') <= List.length t)%nat ->
  scan r 0 b (c :: t) = inr (mkm (firstn (List.length (c :: t) - List.length (rest s')) (c :: t)) (caps s')) :: scan r (List.length t - List.length (rest s')) (c :: b) t.
Proof.
  intros r b c t s' H L. apply scan_step; [apply at_pos_some; [exact H|cbn [List.length]; lia]|]. cbn [mtxt]. rewrite firstn_length. cbn [List.length]. lia.
Qed.
Lemma item_txt : forall t1 t2 cs s, replace_ item_groups item_handler s (mkm t1 cs) = replace_ item_groups item_handler s (mkm t2 cs).
Proof. intros t1 t2 cs s. unfold replace_. destruct (perr s); [reflexivity|]. change (first_group item_groups (mkm t1 cs)) with (first_group item_groups (mkm t2 cs)). destruct (first_group item_groups (mkm t2 cs)) as [g|]; [|reflexivity]. destruct g; reflexivity. Qed.
Lemma items_gap : forall c v s, bullet c = true -> fold_left (replace_ item_groups item_handler) (finditer item_re (10 :: c :: v)) s = fold_left (replace_ item_groups item_handler) (finditer item_re (c :: v)) s.
Proof.
  intros c v s Hc. change (finditer item_re ?t) with (mts (scan item_re 0 [] t)). pose proof (item_gap c v Hc) as G.
  destruct (m item_re (mk [] (10 :: c :: v) []) fin) as [s1|] eqn:E1, (m item_re (mk [] (c :: v) []) fin) as [s2|] eqn:E2; try destruct G.
  - destruct H0 as (EC & L). rewrite (scan_some _ _ _ _ _ E1) by (cbn [List.length]; lia). rewrite (scan_some _ _ _ _ _ E2) by (rewrite <- H; lia).
    cbn [mts flat_map fold_left app]. rewrite EC, H. rewrite (item_txt _ (firstn (List.length (c :: v) - List.length (rest s2)) (c :: v))).
    replace (List.length (c :: v) - List.length (rest s2))%nat with (S (List.length v - List.length (rest s2))) by (cbn [List.length]; rewrite <- H; lia). cbn [scan].
    pose proof (scan_near item_re [10] [] item_near eq_refl eq_refl v (List.length v - List.length (rest s2)) [c]) as SN. cbn [app] in SN. rewrite SN. reflexivity.
  - rewrite (scan_miss _ _ _ _ E1). pose proof (scan_near item_re [10] [] item_near eq_refl eq_refl (c :: v) 0 []) as SN. cbn [app] in SN. rewrite SN. reflexivity.
Qed.

(** both searches *)
Definition alike (c1 c2 : list (gname * str)) : Prop := forall t1 t2 s, replace_ (block_groups true) block_handler s (mkm t1 c1) = replace_ (block_groups true) block_handler s (mkm t2 c2).
Lemma alike_refl : forall c, alike c c.
Proof. intros cs t1 t2 s. unfold replace_. destruct (perr s); [reflexivity|]. change (first_group (block_groups true) (mkm t1 cs)) with (first_group (block_groups true) (mkm t2 cs)). destruct (first_group (block_groups true) (mkm t2 cs)) as [g|]; [|reflexivity]. destruct g; reflexivity. Qed.
Lemma alike_sep : forall c1 c2, sep_caps c1 c2 -> alike c1 c2.
Proof. intros ? ? (v1 & v2 & -> & ->) t1 t2 s. unfold replace_. destruct (perr s); reflexivity. Qed.
Lemma alike_list : forall c c1 c2, bullet c = true -> list_caps c c1 c2 -> alike c1 c2.
Proof.
  intros c ? ? Hc (v & -> & ->) t1 t2 s. unfold replace_. destruct (perr s); [reflexivity|]. exact (items_gap c v s Hc).
Qed.
Lemma both_gaps : forall X b, truthy X = true -> head_is is_space X = false -> bol b = true ->
  m (block_re true) (mk b (10 :: X) []) (fadv (10 :: X)) = None \/
  exists s1 s2, m (block_re true) (mk b (10 :: X) []) (fadv (10 :: X)) = Some s1 /\ m (block_re true) (mk (10 :: b) X []) fin = Some s2 /\ below X alike s1 s2.
Proof.
  intros X b H1 H2 Hb. rewrite !block_alts. unfold r_macro_block. rewrite macro_no by reflexivity. rewrite gap_line_adv by assumption. rewrite head_no by (right; reflexivity). rewrite preb_no by (right; left; reflexivity). cbn [orelse].
  assert (TX : forall k, m (r_text true) (mk b (10 :: X) []) k = None) by (intro k; unfold r_text; rewrite m_seq; apply text_grp_no; reflexivity). rewrite TX, orelse_nil.
  assert (BL : blankp X = false) by (destruct X as [|c X]; [discriminate H1|]; cbn [head_is] in H2; cbn [BlockRun.blank]; rewrite H2; destruct (N.eqb_spec c 10) as [->|]; [discriminate H2|reflexivity]).
  destruct (startswith ($ "----") X) eqn:E1; [|destruct (list_start X) eqn:E2; [|destruct (head_is (N.eqb 124) X) eqn:E3]].
  - assert (EX : exists Y, X = $ "----" ++ Y) by (apply startswith_app in E1; exact E1). destruct EX as (Y & ->).
    rewrite list_no by (right; apply sp_no_nl; reflexivity). rewrite table_no by (right; apply sp_no_nl; reflexivity). cbn [orelse]. rewrite orelse_nil.
    rewrite macro_no by reflexivity. rewrite line_no by (right; exact BL). rewrite head_no by (right; reflexivity). cbn [orelse].
    pose proof (sep_gap Y b Hb) as G. destruct (m r_separator (mk b (10 :: $ "----" ++ Y) []) (fadv (10 :: $ "----" ++ Y))) as [s1|], (m r_separator (mk (10 :: b) ($ "----" ++ Y) []) fin) as [s2|]; try destruct G; [|left; reflexivity].
    right. exists s1, s2. split; [reflexivity|]. split; [reflexivity|]. destruct H0 as (A & B & C). split; [exact H|]. split; [exact A|]. split; [exact B|apply alike_sep; exact C].
  - destruct X as [|c [|d X]]; try discriminate E2. cbn [list_start] in E2. apply andb_true_iff in E2 as [Hc Hd]. apply negb_true_iff in Hd.
    assert (Dc : c = 42 \/ c = 35) by (unfold bullet in Hc; apply orb_true_iff in Hc as [Hc'|Hc']; apply N.eqb_eq in Hc'; auto).
    rewrite sep_no by (right; apply sp_no_nl; [reflexivity|exact E1|exact H2]). rewrite table_no by (right; apply sp_no_nl; [reflexivity|destruct Dc; subst c; reflexivity|exact H2]). cbn [orelse]. rewrite orelse_nil.
    rewrite macro_no by (destruct Dc; subst c; reflexivity). rewrite line_no by (right; exact BL). rewrite head_no by (right; destruct Dc; subst c; reflexivity). rewrite sep_no by (right; apply sp_no_here; [exact E1|exact H2]). rewrite preb_no by (right; left; destruct Dc; subst c; reflexivity). cbn [orelse].
    pose proof (list_gap c d X b Hc Hd Hb) as G. destruct (m r_list (mk b (10 :: c :: d :: X) []) (fadv (10 :: c :: d :: X))) as [s1|], (m r_list (mk (10 :: b) (c :: d :: X) []) fin) as [s2|]; try destruct G; [|left; reflexivity].
    right. exists s1, s2. split; [reflexivity|]. split; [reflexivity|]. destruct H0 as (A & B & C). split; [exact H|]. split; [exact A|]. split; [exact B|eapply alike_list; eassumption].
  - destruct X as [|c X]; [discriminate H1|]. cbn [head_is] in E3. apply N.eqb_eq in E3. subst c.
    rewrite sep_no by (right; apply sp_no_nl; reflexivity). rewrite list_no by (right; apply sp_no_nl; [reflexivity|destruct X; reflexivity|reflexivity]). cbn [orelse].
    rewrite macro_no by reflexivity. rewrite line_no by (right; exact BL). rewrite head_no by (right; reflexivity). rewrite sep_no by (right; apply sp_no_here; reflexivity). rewrite preb_no by (right; left; reflexivity). rewrite list_no by (right; apply sp_no_here; [destruct X; reflexivity|reflexivity]). cbn [orelse].
    pose proof (table_gap X b Hb) as G. destruct (m r_table (mk b (10 :: 124 :: X) []) (fadv (10 :: 124 :: X))) as [s1|], (m r_table (mk (10 :: b) (124 :: X) []) fin) as [s2|]; try destruct G; [|left; reflexivity].
    right. exists s1, s2. split; [reflexivity|]. split; [reflexivity|]. destruct H0 as (A & B & C). split; [exact H|]. split; [exact A|]. split; [exact B|rewrite C; apply alike_refl].
  - left. rewrite sep_no by (right; apply sp_no_nl; [reflexivity|exact E1|exact H2]). rewrite list_no by (right; apply sp_no_nl; [destruct X; reflexivity|exact E2|exact H2]). rewrite table_no by (right; apply sp_no_nl; [reflexivity|exact E3|exact H2]). reflexivity.
Qed.
Lemma gap_free : forall X b s, truthy X = true -> head_is is_space X = false -> bol b = true -> sane s ->
  run true (mts (scan (block_re true) 0 b (10 :: X))) s = run true (mts (scan (block_re true) 0 (10 :: b) X)) (line_repl s).
Proof.
  intros X b s H1 H2 Hb Hs. pose proof (at_pos_gap true X b H1 H2 Hb) as AP. rewrite try_adv in AP. destruct (both_gaps X b H1 H2 Hb) as [E|(s1 & s2 & E1 & E2 & (A & B & C & D))].
  - rewrite E in AP. cbn [scan]. rewrite AP. unfold last_len. cbn [rev app List.length mtxt line_m map mts flat_map]. exact (run_line_m _ s Hs).
  - rewrite E1 in AP. destruct X as [|c X]; [discriminate H1|]. assert (L : (List.length (rest s2) <= List.length X)%nat) by (rewrite <- B; cbn [List.length] in C; lia).
    rewrite (scan_some _ _ _ _ _ E2 L). cbn [scan]. rewrite AP. unfold last_len. cbn [rev app mtxt map]. rewrite firstn_length.
    replace (Nat.min (List.length (10 :: c :: X) - List.length (rest s1)) (List.length (10 :: c :: X))) with (S (S (List.length X - List.length (rest s2)))) by (rewrite B; cbn [List.length]; lia).
    cbn [scan mts flat_map app]. rewrite run_line_m by exact Hs. unfold run. cbn [fold_left]. rewrite (D _ (firstn (List.length (c :: X) - List.length (rest s2)) (c :: X))). reflexivity.
Qed.
Lemma gap_run_free : forall X ls b s, truthy X = true -> head_is is_space X = false -> forallb blank_line ls = true -> bol b = true -> sane s -> exists b', bol b' = true /\
  run true (mts (scan (block_re true) 0 b (wr_lines ls ++ X))) s = run true (mts (scan (block_re true) 0 b' (X))) (lines (shown_lines false ls) s).
Proof.
  intros X ls b s H1 H2 Hls Hb Hs. assert (D : ls = [] \/ ls <> []) by (destruct ls; [left; reflexivity|right; discriminate]). destruct D as [->|Hn]; [exists b; auto|].
  rewrite wr_lines_text by exact Hn. pose proof (lines_space ls Hls) as HG. pose proof (lines_bol ls b Hn Hls Hb) as HB.
  assert (D : lines_text ls = [] \/ lines_text ls <> []) by (destruct (lines_text ls); [left; reflexivity|right; discriminate]). destruct D as [D|D].
  - rewrite D. rewrite (lines_empty ls Hn D), shown_single. exists (10 :: b). split; [reflexivity|]. exact (gap_free X b s H1 H2 Hb Hs).
  - destruct (shown_more ls D) as (-> & _). set (G := lines_text ls) in *. pose proof (space_run G (10 :: X) b D HG Hb eq_refl (solid_end _ H1 H2)) as Hm.
    rewrite (mts_hit _ _ _ _ _ D Hm). rewrite run_space_m by exact Hs. exists (10 :: rev G ++ b). split; [reflexivity|]. destruct (ends_empty ls).
    + exact (gap_free X (rev G ++ b) (line_repl s) H1 H2 HB (sane_next s Hs)).
    + rewrite scan_miss by (apply newline_no; [exact HB|left; reflexivity]). reflexivity.
Qed.
Lemma tails_free : forall p l ls X, forallb blank_line (l :: ls) = true -> truthy X = true -> head_is is_space X = false -> tails p (10 :: wr_lines (l :: ls) ++ X).
Proof.
  intros p l ls X H H1 H2. split; [right; eexists; reflexivity|]. destruct p as [[]|]; try exact Logic.I.
  - rewrite wr_lines_cons. cbn [forallb] in H. apply andb_true_iff in H as [H _]. apply no_more_blank; [exact (blank_line_space l H)|right; eexists; reflexivity].
  - destruct (table_tail (l :: ls) X H H1 H2) as [(_ & R)|(_ & R)]; eexists; eexists; exact R.
Qed.
Section Free.
  Variable c : cfg.
  Hypothesis no_toc : use_toc c = false.
  Local Notation showns := (InlineParse.showns c).
  Lemma part_free : forall p ls X b dch out, tpart_ok p = true -> forallb blank_line ls = true -> truthy X = true -> head_is is_space X = false ->
    shown_lines (is_table p) ls <> O -> bol b = true -> nobreak dch -> showns doc_h (rev dch) out ->
    exists b' dch', bol b' = true /\ nobreak dch' /\ showns doc_h (rev dch') ((out ++ praw c p) ++ repeat 10 (shown_lines (is_table p) ls)) /\
      run true (mts (scan (block_re true) 0 b (wr_tpart p ++ 10 :: wr_lines ls ++ X))) (closed1 dch) = run true (mts (scan (block_re true) 0 b' X)) (closed1 dch').
  Proof.
    intros p ls X b dch out Hp Hls H1 H2 HA Hb Hd Sh.
    assert (Step : exists s' dch' brk b', post p brk s' dch' /\ showns doc_h (rev dch') (out ++ praw c p) /\ bol b' = true /\
      run true (mts (scan (block_re true) 0 b (wr_tpart p ++ 10 :: wr_lines ls ++ X))) (closed1 dch) = run true (mts (scan (block_re true) 0 b' X)) (lines (shown_lines (is_table p) ls) s')).
    { destruct (is_table p) eqn:Ht.
      - destruct p as [x|rows]; [discriminate Ht|]. destruct (table_tail ls X Hls H1 H2) as [(-> & R)|(Hn & R)].
        + destruct (table_hits c rows _ _ _ b dch out Hp R Hb Hd Sh) as (s' & dch' & P & Sh' & E). exists s', dch', false, (10 :: rev (wr_tpart (TTable rows)) ++ b). split; [exact P|]. split; [exact Sh'|]. split; [reflexivity|].
          etransitivity; [exact E|]. rewrite app_nil_r. rewrite scan_miss; [reflexivity|]. apply newline_no; [|left; reflexivity].
          destruct (ptable_facts rows Hp) as (A & _). change (wr_tpart (TTable rows)) with (wr_rows rows). destruct (exists_last A) as (rs & r & ->). unfold wr_rows. rewrite map_app. cbn [map]. destruct (lines_text_suffix (map wr_prow rs) (wr_prow r)) as (v & ->).
          rewrite rev_app_distr, <- app_assoc. apply prow_bol.
        + destruct (table_hits c rows _ _ _ b dch out Hp R Hb Hd Sh) as (s' & dch' & P & Sh' & E).
          exists s', dch', false, (10 :: rev (wr_tpart (TTable rows) ++ 10 :: lines_text ls) ++ b). split; [exact P|]. split; [exact Sh'|]. split; [reflexivity|]. etransitivity; [exact E|].
          set (B := rev (wr_tpart (TTable rows) ++ 10 :: lines_text ls) ++ b).
          assert (HB : bol B = ends_empty ls).
          { rewrite <- (lines_bol ls (10 :: rev (wr_tpart (TTable rows)) ++ b) Hn Hls eq_refl). unfold B. repeat (rewrite ?rev_app_distr, <- ?app_assoc; cbn [rev app]). reflexivity. }
          assert (HS : shown_lines true ls = (if ends_empty ls then 1 else 0)%nat).
          { assert (D : lines_text ls = [] \/ lines_text ls <> []) by (destruct (lines_text ls); [left; reflexivity|right; discriminate]). destruct D as [D|D]; [rewrite (lines_empty ls Hn D); reflexivity|apply (shown_more ls D)]. }
          rewrite HS. destruct (ends_empty ls).
          * exact (gap_free X B s' H1 H2 HB (post_sane _ _ _ _ P)).
          * rewrite scan_miss by (apply newline_no; [exact HB|left; reflexivity]). reflexivity.
      - assert (TN : tails p (10 :: wr_lines ls ++ X)) by (destruct ls as [|l ls]; [exfalso; apply HA; reflexivity|apply tails_free; assumption]).
        destruct (part_hits c no_toc p Hp Ht _ b dch out TN Hb Hd Sh) as (s' & dch' & brk & P & _ & Sh' & E). cbn [rest_ms] in E.
        destruct (gap_run_free X ls (10 :: rev (wr_tpart p) ++ b) s' H1 H2 Hls eq_refl (post_sane _ _ _ _ P)) as (b' & Hb' & E').
        exists s', dch', brk, b'. split; [exact P|]. split; [exact Sh'|]. split; [exact Hb'|]. etransitivity; [exact E|exact E']. }
    destruct Step as (s' & dch' & brk & b' & P & Sh' & Hb' & E). exists b', (lined (shown_lines (is_table p) ls) dch'). split; [exact Hb'|]. split; [apply lined_nobreak; apply P|]. split; [apply lined_shown; exact Sh'|]. etransitivity; [exact E|].
    destruct (shown_lines (is_table p) ls) as [|k].
    - congruence.
    - rewrite (lines_lined k s' dch' (post_upto _ _ _ _ P)). reflexivity.
  Qed.


  Lemma ends_lines : forall ls X, wr_ends ls ++ 10 :: 10 :: X = 10 :: wr_lines (ls ++ [[]]) ++ X.
  Proof.
    assert (E : forall ls l, wr_ends ls ++ 10 :: l = 10 :: wr_lines ls ++ l).
    { induction ls as [|x ls IH]; intro l; [reflexivity|]. rewrite wr_lines_cons. change (wr_ends (x :: ls)) with ((10 :: x) ++ wr_ends ls). rewrite <- app_assoc, IH. reflexivity. }
    intros ls X. rewrite E. unfold wr_lines. rewrite flat_map_app. cbn [flat_map app]. rewrite <- app_assoc. reflexivity.
  Qed.
  Lemma shown_snoc : forall t ls, shown_lines t (ls ++ [[]]) <> O.
  Proof. intros t ls. unfold shown_lines, ends_empty. rewrite rev_app_distr. cbn [rev app]. lia. Qed.
  Lemma fdoc_free : forall d X, d <> [] -> fdoc_ok d = true -> truthy X = true -> head_is is_space X = false -> forall b dch out, bol b = true -> nobreak dch -> showns doc_h (rev dch) out ->
    exists b' dch' k, bol b' = true /\ nobreak dch' /\ showns doc_h (rev dch') ((out ++ fraw c d) ++ repeat 10 k) /\
      run true (mts (scan (block_re true) 0 b (wr_fdoc d ++ 10 :: 10 :: X))) (closed1 dch) = run true (mts (scan (block_re true) 0 b' X)) (closed1 dch').
  Proof.
    intros d X. induction d as [|[p ls] d IH]; intros Hn Hok H1 H2 b dch out Hb Hd Sh; [congruence|]. destruct d as [|[q ls2] d].
    - cbn [fdoc_ok] in Hok. rewrite !andb_true_iff in Hok. destruct Hok as [[[A B] _] _]. cbn [wr_fdoc fraw]. rewrite <- app_assoc, ends_lines.
      assert (B' : forallb blank_line (ls ++ [[]]) = true) by (rewrite forallb_app, B; reflexivity).
      destruct (part_free p (ls ++ [[]]) X b dch out A B' H1 H2 (shown_snoc _ _) Hb Hd Sh) as (b' & dch' & Hb' & Hd' & Sh' & E). exists b', dch', (shown_lines (is_table p) (ls ++ [[]])). auto.
    - destruct (fdoc_ok_cons _ _ _ _ _ Hok) as (A & B & C & D). destruct (fdoc_first _ _ _ D) as (F & T & ET & HT).
      assert (HT' : exists T', wr_fdoc ((q, ls2) :: d) ++ 10 :: 10 :: X = wr_tpart q ++ T' /\ tails q T').
      { destruct d as [|[q2 ls3] d].
        - cbn [wr_fdoc]. exists (10 :: wr_lines (ls2 ++ [[]]) ++ X). rewrite <- app_assoc, ends_lines. split; [reflexivity|]. cbn [fdoc_ok] in D. rewrite !andb_true_iff in D. destruct D as [[[_ D] _] _].
          assert (B' : forallb blank_line (ls2 ++ [[]]) = true) by (rewrite forallb_app, D; reflexivity). destruct (ls2 ++ [[]]) as [|l l'] eqn:El; [destruct ls2; discriminate El|]. apply tails_free; assumption.
        - rewrite wr_fdoc_cons. destruct (fdoc_ok_cons _ _ _ _ _ D) as (D1 & D2 & D3 & D4). destruct (fdoc_first _ _ _ D4) as (F5 & T5 & -> & _). exists (10 :: wr_lines ls2 ++ wr_tpart q2 ++ T5 ++ 10 :: 10 :: X). split.
          + rewrite <- !app_assoc. cbn [app]. rewrite <- !app_assoc. reflexivity.
          + apply tails_next; assumption. }
      destruct HT' as (T' & ET' & HT').
      destruct (part_then c no_toc p ls q T' b dch out A B F HT' C Hb Hd Sh) as (b1 & dch1 & Hb1 & Hd1 & Sh1 & E1).
      destruct (IH ltac:(discriminate) D H1 H2 b1 dch1 _ Hb1 Hd1 Sh1) as (b' & dch' & k & Hb' & Hd' & Sh' & E'). exists b', dch', k. split; [exact Hb'|]. split; [exact Hd'|]. split.
      + rewrite fraw_cons. rewrite <- !app_assoc in *. exact Sh'.
      + rewrite wr_fdoc_cons. rewrite <- app_assoc. cbn [app]. rewrite <- app_assoc. rewrite ET' in *. etransitivity; [exact E1|exact E'].
  Qed.
End Free.

(** ** the whole document *)
Lemma unify_no_cr : forall a b, ~ In 13 a -> unify (a ++ b) = a ++ unify b.
Proof.
  induction a as [|c a IH]; intros b H; [reflexivity|]. cbn [app unify]. destruct (N.eqb_spec c 13) as [->|Hc]; [exfalso; apply H; left; reflexivity|]. rewrite IH; [reflexivity|]. intro I. apply H. right. exact I.
Qed.
Lemma unify_solid : forall X, truthy X = true -> head_is is_space X = false -> truthy (unify X) = true /\ head_is is_space (unify X) = false.
Proof. intros [|c X] H1 H2; [discriminate H1|]. cbn [head_is] in H2. cbn [unify]. destruct (N.eqb_spec c 13) as [->|]; [discriminate H2|]. split; [reflexivity|exact H2]. Qed.
Lemma run_doc : forall t, perr (parse_block true t init_ps) = false /\ exists ch, stk (pop_to 1 (parse_block true t init_ps)) = [(doc_h, ch)].
Proof.
  intro t. unfold parse_block. assert (H : blk_state (fold_left (replace_ (block_groups true) block_handler) (finditer (block_re true) t) init_ps)).
  { apply fold_inv; [intros; eapply ParserFacts.block_ok; eauto|]. constructor; auto. constructor. reflexivity. }
  set (s := fold_left _ _ _) in *. destruct H as [He Ht Hs]. split; [exact He|]. destruct (pop_n_doc _ Hs) as (ch & E & _). exists ch. exact E.
Qed.
Lemma finish_lift : forall old s h ch, LiftDoc.K s -> perr s = false -> stk (pop_to 1 s) = [(h, ch)] ->
  finish s = Some (Nd h (rev ch), used s) /\ finish (lift old [] s) = Some (Nd h (rev old ++ rev ch), used s).
Proof.
  intros old s h ch HK HE HS. unfold finish. rewrite HE. split; [rewrite HS; reflexivity|]. change (perr (lift old [] s)) with (perr s). rewrite HE. rewrite (proj2 (comm_pop_to old [] 1 s HK)).
  unfold lift at 1. cbn [stk]. rewrite HS. cbn [lift_stk]. rewrite rev_app_distr. reflexivity.
Qed.
Lemma nobreak_old : forall l, nobreak l -> match l with n :: _ => kind_beq (nkind n) KBreak = false | [] => True end.
Proof. intros [|n l] H; [exact Logic.I|]. cbn [nobreak] in H. destruct (kind_beq (nkind n) KBreak) eqn:E; [|reflexivity]. apply kind_beq_eq in E. congruence. Qed.
Lemma blanks_app : forall a b : str, forallb is_space a = true -> forallb is_space b = true -> forallb is_space (a ++ b) = true.
Proof. intros a b H1 H2. rewrite forallb_app. apply andb_true_iff. split; assumption. Qed.
Theorem free_spec : forall v s md lead d X, forallb blank_line lead = true -> d <> [] -> fdoc_ok d = true ->
  truthy X = true -> head_is is_space X = false -> ~ uses_toc true X ->
  let o := mkopts true v s in let t := wr_lines lead ++ wr_fdoc d ++ [10; 10] ++ X in
  snd (creole2html o md t) = snd (creole2html o md X) /\
  match fst (creole2html o md X) with
  | Ok h => exists w, forallb is_space w = true /\ fst (creole2html o md t) = Ok (html_fdoc s d ++ match h with [] => [] | _ => w ++ h end)
  | Exc e => fst (creole2html o md t) = Exc e
  end.
Proof.
  intros v s md lead d X Hl Hd Hok H1 H2 HT o t. unfold o, t, creole2html. cbn [o_blog o_verbose o_strict]. unfold parse. rewrite !Safety.norm_unify.
  assert (N : unify (wr_lines lead ++ wr_fdoc d ++ [10; 10] ++ X) = wr_lines lead ++ wr_fdoc d ++ 10 :: 10 :: unify X).
  { rewrite !app_assoc. rewrite unify_no_cr; [rewrite <- !app_assoc; reflexivity|]. intro I. apply in_app_or in I as [I|[I|[I|[]]]]; try discriminate I. apply in_app_or in I as [I|I]; [exact (lines_no_cr lead Hl I)|exact (fdoc_no_cr d Hok I)]. }
  rewrite N. destruct (unify_solid X H1 H2) as (U1 & U2).
  set (c := mkcfg (match v with None => 1%Z | Some v => v end) s (md_env md) false).
  assert (R : exists dch k1 k2, nobreak dch /\ showns c doc_h (rev dch) (repeat 10 k1 ++ html_fdoc s d ++ ends_in d ++ repeat 10 k2) /\
    parse_block true (wr_lines lead ++ wr_fdoc d ++ 10 :: 10 :: unify X) init_ps = lift dch [] (parse_block true (unify X) init_ps)).
  { change (parse_block true ?t init_ps) with (run true (mts (scan (block_re true) 0 [] t)) (closed1 [])). assert (Hs : sane (closed1 [])) by (split; [reflexivity|exists []; reflexivity]).
    assert (Z : showns c doc_h (rev []) []) by apply showns_nil.
    assert (SD : truthy (wr_fdoc d ++ 10 :: 10 :: unify X) = true /\ head_is is_space (wr_fdoc d ++ 10 :: 10 :: unify X) = false).
    { destruct d as [|[q ls] d]; [congruence|]. destruct (fdoc_first _ _ _ Hok) as (H5 & T & -> & _). rewrite <- app_assoc. apply first_head. exact H5. }
    destruct SD as (S1 & S2). destruct (gap_run_free _ lead [] (closed1 []) S1 S2 Hl eq_refl Hs) as (b0 & Hb0 & E0).
    assert (E : lines (shown_lines false lead) (closed1 []) = closed1 (lined (shown_lines false lead) [])) by (destruct (shown_lines false lead) as [|k]; [reflexivity|apply lines_lined; reflexivity]). rewrite E in E0.
    destruct (fdoc_free c eq_refl d (unify X) Hd Hok U1 U2 b0 (lined (shown_lines false lead) []) _ Hb0 (lined_nobreak _ [] Logic.I) (lined_shown c _ [] [] Z)) as (b' & dch & k & Hb' & Hn & Sh & E').
    exists dch, (shown_lines false lead), k. split; [exact Hn|]. split; [rewrite fraw_html in Sh; cbn [app] in Sh; rewrite <- !app_assoc in Sh; exact Sh|].
    etransitivity; [exact E0|]. etransitivity; [exact E'|]. pose proof (scan_near (block_re true) b' [] (block_near true) Hb' eq_refl (unify X) 0 []) as SN. cbn [app] in SN. rewrite SN.
    assert (L0 : closed1 dch = lift dch [] init_ps) by reflexivity. rewrite L0.
    apply (proj2 (lift_run dch [] (nobreak_old dch Hn) (block_groups true) _ init_ps (conj eq_refl eq_refl))). }
  destruct R as (dch & k1 & k2 & Hn & Sh & ->). set (sx := parse_block true (unify X) init_ps) in *.
  assert (BX : LiftDoc.K sx) by (apply (lift_run [] [] Logic.I (block_groups true) _ init_ps (conj eq_refl eq_refl))).
  destruct (run_doc (unify X)) as (PE & ch & ES). fold sx in PE, ES. destruct (finish_lift dch sx doc_h ch BX PE ES) as (F1 & F2).
  rewrite F1, F2.
  assert (TC : existsb (str_eqb ($ "toc")) (used sx) = false).
  { destruct (existsb (str_eqb ($ "toc")) (used sx)) eqn:E; [|reflexivity]. exfalso. apply HT. exists (Nd doc_h (rev ch)), (used sx). unfold parse. rewrite Safety.norm_unify. fold sx. split; [exact F1|].
    apply existsb_exists in E as (x & I & E). apply str_eqb_eq in E. subst x. exact I. }
  unfold init_toc. rewrite TC. cbv iota beta zeta. fold c. unfold emit. rewrite !emit_node_eq. cbv zeta. cbn [hk mkn]. rewrite emit_children_app. rewrite (Sh (mkest (md_toc md) (md_log md))).
  destruct (emit_children c doc_h (rev ch) (mkest (md_toc md) (md_log md))) as [[y|e] s2]; [|split; reflexivity]. change (use_toc c) with false. cbv iota beta. cbn [fst snd]. split; [reflexivity|].
  destruct (strip_split is_space y) as (a & z & EY & Ha & Hz). fold (strip y) in EY.
  destruct (strip y) as [|h0 h'] eqn:EH.
  - exists []. split; [reflexivity|]. f_equal. rewrite EY. cbn [app]. rewrite <- !app_assoc.
    etransitivity; [apply (strip_sides is_space (repeat 10 k1) (html_fdoc s d) (ends_in d ++ repeat 10 k2 ++ a ++ z)); [apply nl_space|apply blanks_app; [apply ends_in_space|]; apply blanks_app; [apply nl_space|]; apply blanks_app; assumption]|].
    rewrite app_nil_r. apply (trimmed_strip (html_fdoc s d)). apply solid_trimmed. apply html_fdoc_solid. exact Hd.
  - exists (ends_in d ++ repeat 10 k2 ++ a). split; [apply blanks_app; [apply ends_in_space|]; apply blanks_app; [apply nl_space|assumption]|]. f_equal. rewrite EY. rewrite <- EH.
    etransitivity; [|apply (trimmed_strip (html_fdoc s d ++ (ends_in d ++ repeat 10 k2 ++ a) ++ strip y))].
    + etransitivity; [|exact (strip_sides is_space (repeat 10 k1) (html_fdoc s d ++ (ends_in d ++ repeat 10 k2 ++ a) ++ strip y) z (nl_space k1) Hz)]. unfold strip at 1. f_equal. rewrite <- !app_assoc. reflexivity.
    + apply solid_trimmed. destruct (html_fdoc_solid s d Hd) as (A & B & C). destruct (head_app is_space (html_fdoc s d) ((ends_in d ++ repeat 10 k2 ++ a) ++ strip y) C) as (G1 & G2).
      split; [etransitivity; [exact G1|exact A]|]. split; [|exact G2]. rewrite app_assoc. rewrite last_is_suffix by (rewrite EH; discriminate). unfold last_is.
      destruct (rev (strip y)) as [|e r] eqn:ER; [reflexivity|]. exact (strip_by_last is_space y e r ER).
Qed.
