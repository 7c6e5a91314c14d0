(** * How table rows and their cells are matched *)
From Coq Require Import String List Arith NArith ZArith Bool Lia.
From Verif Require Import PyStr PyStrFacts GNames Regex Rules RegexFacts RegexRun Utils Spec4 Spec5 InlineRun InlineParse BlockRun BlockHits.
Import ListNotations.
Open Scope N_scope.

(** ** the matches of a regular expression, in the order in which they are tried *)
Fixpoint first_some (l : list st) (k : st -> option st) : option st :=
  match l with [] => None | s :: r => orelse (k s) (first_some r k) end.
Lemma first_some_app : forall a b k, first_some (a ++ b) k = orelse (first_some a k) (first_some b k).
Proof. induction a as [|s a IH]; intros b k; [reflexivity|]. cbn [app first_some]. rewrite IH. destruct (k s); reflexivity. Qed.
Lemma first_some_flat : forall a (f : st -> list st) k, first_some (flat_map f a) k = first_some a (fun s => first_some (f s) k).
Proof. induction a as [|s a IH]; intros f k; [reflexivity|]. cbn [flat_map first_some]. rewrite first_some_app, IH. reflexivity. Qed.
Lemma first_some_map : forall a (f : st -> st) k, first_some (map f a) k = first_some a (fun s => k (f s)).
Proof. induction a as [|s a IH]; intros f k; [reflexivity|]. cbn [map first_some]. rewrite IH. reflexivity. Qed.
Lemma first_some_ext : forall a k1 k2, (forall s, k1 s = k2 s) -> first_some a k1 = first_some a k2.
Proof. induction a as [|s a IH]; intros k1 k2 H; [reflexivity|]. cbn [first_some]. rewrite H, (IH k1 k2 H). reflexivity. Qed.
Fixpoint star_results (f : st -> list st) (greedy : bool) (n : nat) (s : st) : list st :=
  match n with
  | O => [s]
  | S n' => if greedy then flat_map (star_results f greedy n') (f s) ++ [s] else s :: flat_map (star_results f greedy n') (f s)
  end.
Lemma results : forall r, exists f, forall s k, m r s k = first_some (f s) k.
Proof.
  induction r as [|p|a [fa Ha] b [fb Hb]|a [fa Ha] b [fb Hb]|g r [f Hf]|g r [f Hf]|g| | | |neg p|r [f Hf]].
  - exists (fun s => [s]). intros s k. cbn. destruct (k s); reflexivity.
  - exists (fun s => match rest s with c :: t => if p c then [mk (c :: bef s) t (caps s)] else [] | [] => [] end).
    intros [b [|c t] cs] k; [reflexivity|]. cbn. destruct (p c); [|reflexivity]. cbn. destruct (k _); reflexivity.
  - exists (fun s => flat_map fb (fa s)). intros s k. rewrite m_seq, Ha, first_some_flat. apply first_some_ext. intro s'. apply Hb.
  - exists (fun s => fa s ++ fb s). intros s k. rewrite m_alt, Ha, Hb, first_some_app. reflexivity.
  - exists (fun s => star_results f g (List.length (rest s)) s). intros s k.
    change (m (RStar g r) s k) with ((fix star (n : nat) (s : st) : option st :=
       match n with
       | O => k s
       | S n' => if g then orelse (m r s (fun s' => star n' s')) (k s) else orelse (k s) (m r s (fun s' => star n' s'))
       end) (List.length (rest s)) s).
    generalize (List.length (rest s)). intro n. revert s. induction n as [|n IH]; intro s; [cbn; destruct (k s); reflexivity|].
    cbn [star_results]. destruct g.
    + rewrite first_some_app, first_some_flat, Hf. rewrite (first_some_ext _ _ _ IH). cbn [first_some]. destruct (k s); reflexivity.
    + cbn [first_some]. rewrite first_some_flat, Hf. rewrite (first_some_ext _ _ _ IH). reflexivity.
  - exists (fun s => map (fun s' => mk (bef s') (rest s') ((g, firstn (List.length (rest s) - List.length (rest s')) (rest s)) :: caps s')) (f s)).
    intros [b t cs] k. rewrite m_grp, Hf, first_some_map. reflexivity.
  - exists (fun s => match cap g (caps s) with Some w => match eat w s with Some s' => [s'] | None => [] end | None => [] end).
    intros s k. cbn [m]. destruct (cap g (caps s)); [|reflexivity]. destruct (eat s0 s); [|reflexivity]. cbn. destruct (k _); reflexivity.
  - exists (fun s => match bef s with [] => [s] | c :: _ => if c =? 10 then [s] else [] end).
    intros s k. cbn [m]. destruct (bef s) as [|c b]; [|destruct (c =? 10)]; cbn; try reflexivity; destruct (k s); reflexivity.
  - exists (fun s => match rest s with [] => [s] | c :: _ => if c =? 10 then [s] else [] end).
    intros s k. cbn [m]. destruct (rest s) as [|c b]; [|destruct (c =? 10)]; cbn; try reflexivity; destruct (k s); reflexivity.
  - exists (fun s => match bef s with [] => [s] | c :: _ => [] end).
    intros s k. cbn [m]. destruct (bef s) as [|c b]; cbn; try reflexivity; destruct (k s); reflexivity.
  - exists (fun s => match bef s with [] => if neg then [s] else [] | c :: _ => if xorb neg (p c) then [s] else [] end).
    intros s k. cbn [m]. destruct (bef s) as [|c b]; [destruct neg|destruct (xorb neg (p c))]; cbn; try reflexivity; destruct (k s); reflexivity.
  - exists (fun s => match m r s (fun s' => Some s') with Some _ => [] | None => [s] end).
    intros s k. cbn [m]. destruct (m r s (fun s' => Some s')); [reflexivity|]. cbn. destruct (k s); reflexivity.
Qed.
(** the first match is taken when the continuation accepts it *)
Lemma m_first : forall r s s' k x, m r s fin = Some s' -> k s' = Some x -> m r s k = Some x.
Proof.
  intros r s s' k x H Hk. destruct (results r) as (f & Hf). rewrite Hf in *. destruct (f s) as [|s1 l]; [discriminate|].
  cbn [first_some orelse fin] in *. unfold fin in H. cbn [orelse] in H. injection H as ->. rewrite Hk. reflexivity.
Qed.

(** ** rows *)
Definition row_tail (T e T' : str) : Prop :=
  T = e ++ T' /\ forallb is_space e = true /\ eol T' = true /\
  (forall z y, T' = z ++ y -> z <> [] -> forallb is_space z = true -> eol y = false).
Lemma row_tail_nil : row_tail [] [] [].
Proof. repeat split. intros z y E Hz. destruct z; [congruence|discriminate]. Qed.
Lemma row_tail_row : forall y, head_is is_space y = false -> truthy y = true -> row_tail (10 :: y) [] (10 :: y).
Proof.
  intros y H1 H2. repeat split. intros z y' E Hne Hz. destruct z as [|c z]; [congruence|]. injection E as <- E.
  cbn [forallb] in Hz. apply andb_true_iff in Hz as [_ Hz]. destruct z as [|d z].
  - cbn [app] in E. subst y'. apply solid_eol; assumption.
  - subst y. cbn [app head_is forallb] in *. rewrite H1 in Hz. discriminate.
Qed.
Lemma row_tail_gap : forall X, head_is is_space X = false -> truthy X = true -> row_tail (10 :: 10 :: X) [10] (10 :: X).
Proof. intros X H1 H2. destruct (row_tail_row X H1 H2) as (_ & _ & A & B). repeat split; assumption. Qed.

Definition bar_row (R : str) : str := 124 :: R ++ [124].
Lemma table_hit : forall p R T e T' b k r, lead p -> bol b = true -> R <> [] -> no_char [10; 13] R = true ->
  last_is (fun c => (124 =? c) || is_space c) R = false -> row_tail T e T' ->
  k (mk (rev (p ++ bar_row R ++ e) ++ b) T' [(G_table, bar_row R)]) = Some r ->
  m r_table (mk b (p ++ bar_row R ++ T) []) k = Some r.
Proof.
  intros p R T e T' b k r Hp Hb HR Hn Hl (-> & He & Ho & Hz) Hk. unfold r_table, seqs. rewrite m_seq, m_bol, Hb, m_seq.
  unfold sps, sp. apply star_take; [apply lead_space; exact Hp|reflexivity|]. rewrite m_seq, m_grp, m_seq. unfold c1.
  unfold bar_row at 1. cbn [app]. rewrite m_chr. change (124 =? 124) with true. cbv iota. rewrite m_seq.
  rewrite <- app_assoc. unfold dotstar_lazy, dot. apply lazy_until; [apply dots; exact Hn| |].
  - rewrite m_seq, star_zero by reflexivity. unfold ROpt. rewrite m_alt. apply orelse_some. cbn [app]. rewrite m_chr. change (124 =? 124) with true. cbv iota.
    cbn [bef rest caps]. rewrite m_seq. apply star_back; [exact He| |].
    + rewrite m_eol, Ho. rewrite <- Hk. f_equal. f_equal.
      * unfold bar_row. repeat (rewrite ?rev_app_distr, <- ?app_assoc; cbn [rev app]). reflexivity.
      * f_equal. f_equal. exact (firstn_grp (bar_row R) (e ++ T')).
    + intros z y E Hne Hs. rewrite m_eol. rewrite (Hz z y E Hne Hs). reflexivity.
  - intros x1 x2 -> Hx2. rewrite m_seq. apply star_none. intros z y Ez Hs.
    rewrite last_is_suffix in Hl by exact Hx2. rewrite last_is_orb in Hl. apply orb_false_iff in Hl as [Hl1 Hl2].
    destruct (spaces_inside _ _ _ _ Hx2 Hl2 Ez Hs) as (d & x3 & -> & z' & E).
    assert (Hd : (d =? 10) = false).
    { eapply (no_nl [10; 13] (x1 ++ x2) d (x1 ++ z') x3); [left; reflexivity|exact Hn|rewrite E, app_assoc; reflexivity]. }
    unfold ROpt. rewrite m_alt. apply orelse_none. split.
    + rewrite m_chr. destruct (124 =? d) eqn:Ed; [|reflexivity]. apply N.eqb_eq in Ed. subst d. cbn [bef rest caps]. rewrite m_seq. apply star_none.
      intros z2 y2 Ez2 Hs2. rewrite m_eol.
      assert (Hx3 : x3 <> []).
      { intros ->. rewrite E in Hl1. rewrite last_is_suffix in Hl1 by discriminate. discriminate. }
      assert (Hl3 : last_is is_space x3 = false).
      { rewrite E in Hl2. rewrite last_is_suffix in Hl2 by discriminate. change (124 :: x3) with ([124] ++ x3) in Hl2. rewrite last_is_suffix in Hl2 by exact Hx3. exact Hl2. }
      destruct (spaces_inside _ _ _ _ Hx3 Hl3 Ez2 Hs2) as (d & x4 & -> & z2' & E2). cbn [eol].
      rewrite (no_nl [10; 13] (x1 ++ x2) d (x1 ++ z' ++ 124 :: z2') x4); [reflexivity|left; reflexivity|exact Hn|].
      rewrite E, E2. repeat (rewrite <- !app_assoc; cbn [app]). reflexivity.
    + rewrite m_eps. cbn [bef rest caps]. rewrite m_seq. apply star_none. intros z2 y2 Ez2 Hs2. rewrite m_eol.
      assert (Hl3 : last_is is_space (d :: x3) = false) by (rewrite E in Hl2; rewrite last_is_suffix in Hl2 by discriminate; exact Hl2).
      change (d :: x3 ++ [124] ++ e ++ T') with ((d :: x3) ++ [124] ++ e ++ T') in Ez2.
      destruct (spaces_inside (d :: x3) _ _ _ ltac:(discriminate) Hl3 Ez2 Hs2) as (d2 & x4 & -> & z2' & E2). cbn [eol].
      rewrite (no_nl [10; 13] (x1 ++ x2) d2 (x1 ++ z' ++ z2') x4); [reflexivity|left; reflexivity|exact Hn|].
      rewrite E, E2. rewrite <- !app_assoc. reflexivity.
Qed.

(** ** cells *)
Definition cell_alt : regex := alts [r_link; r_macro_inline; r_macro_tag; r_image; r_pre_inline; not_bar].
Lemma cell_alts : forall s k, m cell_alt s k = orelse (m r_link s k) (orelse (m r_macro_inline s k) (orelse (m r_macro_tag s k)
  (orelse (m r_image s k) (orelse (m r_pre_inline s k) (m not_bar s k))))).
Proof. reflexivity. Qed.
Lemma cell_alt_consuming : consuming cell_alt.
Proof. apply nonnull_consuming. reflexivity. Qed.
Definition eaten (w t : str) : Prop := forall b cs, exists cs' : list (gname * str), forall k r,
  m (RStar true cell_alt) (mk (rev w ++ b) t (cs' ++ cs)) k = Some r ->
  m cell_alt (mk b (w ++ t) cs) (fun s => m (RStar true cell_alt) s k) = Some r.
Lemma eaten_star : forall w t, eaten w t -> forall b cs, exists cs' : list (gname * str), forall k r,
  m (RStar true cell_alt) (mk (rev w ++ b) t (cs' ++ cs)) k = Some r -> m (RStar true cell_alt) (mk b (w ++ t) cs) k = Some r.
Proof.
  intros w t H b cs. destruct (H b cs) as (cs' & H'). exists cs'. intros k r Hk. rewrite m_star by apply cell_alt_consuming.
  apply orelse_some. apply H'. exact Hk.
Qed.
Lemma eaten_app : forall v w t, eaten v (w ++ t) -> eaten w t -> eaten (v ++ w) t.
Proof.
  intros v w t Hv Hw b cs. destruct (Hv b cs) as (c1 & H1). destruct (eaten_star w t Hw (rev v ++ b) (c1 ++ cs)) as (c2 & H2).
  exists (c2 ++ c1). intros k r Hk. rewrite <- app_assoc. apply H1. apply H2. rewrite rev_app_distr, <- !app_assoc in Hk. exact Hk.
Qed.
Lemma eaten_unit : forall w t, (forall b cs, exists cs', m cell_alt (mk b (w ++ t) cs) fin = Some (mk (rev w ++ b) t (cs' ++ cs))) -> eaten w t.
Proof.
  intros w t H b cs. destruct (H b cs) as (cs' & E). exists cs'. intros k r Hk. eapply m_first; [exact E|exact Hk].
Qed.
Lemma eaten_char : forall c t, c <> 124 -> existsb (fun p => startswith p (c :: t)) [$ "[["; $ "{{"; $ "<<"] = false -> eaten [c] t.
Proof.
  intros c t Hc He. apply eaten_unit. intros b cs. exists []. cbn [app rev]. cbn [existsb] in He. rewrite !orb_false_iff in He.
  destruct He as (H1 & H2 & H3 & _). rewrite cell_alts. rewrite link_no by exact H1. unfold r_macro_inline. rewrite macro_no by exact H3.
  rewrite macro_tag_no by exact H3. rewrite image_no, pre_no by exact H2. cbn [orelse]. unfold not_bar. rewrite m_chr.
  destruct (N.eqb_spec c 124); [congruence|]. reflexivity.
Qed.
Lemma eaten_plain : forall w t, w <> [] -> plain_cell w t = true -> eaten w t.
Proof.
  induction w as [|c w IH]; intros t Hw H; [congruence|]. cbn [plain_cell] in H. rewrite !andb_true_iff, !negb_true_iff in H.
  destruct H as [[H1 H2] H3]. apply N.eqb_neq in H1. change (c :: w) with ([c] ++ w). destruct w as [|d w].
  - apply eaten_char; [exact H1|exact H2].
  - apply eaten_app; [apply eaten_char; [exact H1|exact H2]|apply IH; [discriminate|exact H3]].
Qed.
Lemma eaten_link : forall target text b0 t, inl_ok b0 (ILink target text) t = true -> forall T, eaten (wr_inl (ILink target text)) T.
Proof.
  intros target text b0 t H T. cbn [inl_ok] in H. rewrite !andb_true_iff, negb_true_iff in H. destruct H as [[[H1 H2] H3] H4].
  apply eaten_unit. intros b cs. eexists. rewrite cell_alts. apply orelse_some.
  apply (bracket_hit G_link G_link_target G_link_text 91 93 eq_refl ltac:(discriminate) target text b T cs H1 H2 H3).
  destruct text; [|reflexivity]. cbn [opt_ok] in *. rewrite !andb_true_iff in H4. rewrite andb_true_iff. tauto.
Qed.
Lemma eaten_bracket : forall target text T, truthy target = true -> no_char [10; 124; 125] target = true -> last_is is_space target = false ->
  opt_ok (fun x => trimmed x && no_char [10; 125] x) text = true ->
  eaten ($ "{{" ++ target ++ with_bar text ++ $ "}}") T.
Proof.
  intros target text T H1 H2 H3 H4. apply eaten_unit. intros b cs. eexists. rewrite cell_alts. cbn [app].
  rewrite link_no by reflexivity. unfold r_macro_inline. rewrite macro_no by reflexivity. rewrite macro_tag_no by reflexivity. cbn [orelse].
  apply orelse_some.
  exact (bracket_hit G_image G_image_target G_image_text 123 125 eq_refl ltac:(discriminate) target text b T cs H1 H2 H3 H4).
Qed.
Lemma image_text_ok : forall b target title size t, inl_ok b (IImage target title size) t = true ->
  opt_ok (fun x => trimmed x && no_char [10; 125] x) (image_text title size) = true.
Proof.
  intros b target title size t H. cbn [inl_ok] in H. rewrite !andb_true_iff in H. destruct H as [[[[H1 H2] H3] H4] H5].
  destruct title as [v|], size as [wh|]; cbn [image_text opt_ok] in *; try reflexivity; try (apply andb_true_iff in H4 as [H4 H8]).
  - rewrite sized_trimmed, sized_nochar by assumption. reflexivity.
  - rewrite H4. exact H8.
  - rewrite bar_size_trimmed, bar_size_nochar. reflexivity.
Qed.
Lemma plain_marks : forall f t, plain_cell [face_mark f; face_mark f] t = true.
Proof. intros f t. destruct f; reflexivity. Qed.
Lemma eaten_inl : forall i b t, inl_ok b i t = true -> forall T, cell_inl i T = true -> eaten (wr_inl i) T.
Proof.
  induction i as [w|d|f body IH|x|a x|a x sz|u| |a body IH] using inl_ind'; intros b t Hok T Hc.
  - cbn [inl_ok] in Hok. apply andb_true_iff in Hok as [Hw _]. apply eaten_plain; [|exact Hc]. destruct w; discriminate.
  - apply eaten_plain; [discriminate|exact Hc].
  - cbn [inl_ok] in Hok. rewrite !andb_true_iff in Hok. destruct Hok as [[[[H1 _] _] _] Hgo].
    cbn [wr_inl]. apply eaten_app; [apply eaten_plain; [discriminate|apply plain_marks]|].
    cbn [cell_inl] in Hc. 
    assert (G : forall l b, Forall (fun i => forall b t, inl_ok b i t = true -> forall T, cell_inl i T = true -> eaten (wr_inl i) T) l ->
      (fix go (b : str) (l : list inl) : bool :=
       match l with
       | [] => true
       | x :: r => inl_ok b x (flat_map wr_inl r) && go (rev (wr_inl x) ++ b) r
       end) b l = true ->
      (fix go (l : list inl) : bool :=
       match l with
       | [] => true
       | x :: r => cell_inl x (flat_map wr_inl r ++ [face_mark f; face_mark f] ++ T) && go r
       end) l = true -> eaten (flat_map wr_inl l ++ [face_mark f; face_mark f]) T).
    { clear. induction l as [|x l IHl]; intros b HF Hgo Hc.
      - cbn [flat_map app]. apply eaten_plain; [discriminate|apply plain_marks].
      - inversion HF as [|? ? Hx Hl]; subst. apply andb_true_iff in Hgo as [G1 G2]. apply andb_true_iff in Hc as [C1 C2].
        cbn [flat_map]. rewrite <- app_assoc. apply eaten_app; [|eapply IHl; eassumption].
        eapply Hx; [exact G1|]. rewrite <- app_assoc. exact C1. }
    eapply G; [exact IH|exact Hgo|exact Hc].
  - cbn [cell_inl] in Hc. rewrite andb_true_iff, negb_true_iff in Hc. destruct Hc as [C1 C2].
    cbn [inl_ok] in Hok. apply andb_true_iff in Hok as [N1 _].
    replace (wr_inl (ICode x)) with (($ "{{" ++ (123 :: x) ++ with_bar None ++ $ "}}") ++ [125]) by (cbn [wr_inl with_bar app]; rewrite <- !app_assoc; reflexivity).
    apply eaten_app.
    + apply eaten_bracket; [reflexivity| | |reflexivity].
      * unfold no_char in *. cbn [forallb]. apply andb_true_intro. split; [reflexivity|]. rewrite forallb_forall in *. intros c Hi.
        specialize (C1 c Hi). specialize (N1 c Hi). cbn [existsb] in *. destruct (c =? 10); [discriminate|]. exact C1.
      * unfold last_is in *. cbn [rev]. destruct (rev x) as [|c r]; [reflexivity|exact C2].
    + apply eaten_plain; [discriminate|]. reflexivity.
  - eapply eaten_link; eassumption.
  - pose proof (image_text_ok _ _ _ _ _ Hok) as HT. cbn [inl_ok] in Hok. rewrite !andb_true_iff in Hok. destruct Hok as [[[[H1 H2] H3] H4] H5].
    unfold trimmed in H1. rewrite !andb_true_iff, !negb_true_iff in H1. destruct H1 as [[T1 T2] T3].
    cbn [wr_inl]. apply eaten_bracket; assumption.
  - apply eaten_plain; [|exact Hc]. cbn [inl_ok] in Hok. rewrite !andb_true_iff in Hok. destruct Hok as [[[_ H] _] _]. cbn [wr_inl]. intros ->. discriminate.
  - apply eaten_plain; [discriminate|exact Hc].
  - apply rich_facts in Hok as (H1 & H2 & H3 & H4 & H5 & _). apply eaten_unit. intros b0 cs. eexists. rewrite cell_alts. apply orelse_some.
    apply (bracket_hit G_link G_link_target G_link_text 91 93 eq_refl ltac:(discriminate) a (Some (flat_map wr_inl body)) b0 T cs H1 H2 H3).
    cbn [opt_ok]. rewrite H4, H5. reflexivity.
Qed.
(** what follows the bar does not matter *)
Lemma startswith_bar : forall p w X, no_char [124] p = true -> startswith p (w ++ 124 :: X) = startswith p (w ++ [124]).
Proof.
  induction p as [|c p IH]; intros w X H; [destruct w; reflexivity|]. cbn in H. apply andb_true_iff in H as [Hc Hp].
  destruct w as [|d w]; cbn [app startswith].
  - destruct (N.eqb_spec c 124) as [->|]; [discriminate|reflexivity].
  - rewrite (IH w X Hp). reflexivity.
Qed.
Lemma plain_bar : forall w t X, plain_cell w (t ++ 124 :: X) = plain_cell w (t ++ [124]).
Proof.
  induction w as [|c w IH]; intros t X; [reflexivity|]. cbn [plain_cell existsb]. rewrite IH.
  change ((c :: w) ++ t ++ 124 :: X) with (c :: w ++ t ++ 124 :: X). change ((c :: w) ++ t ++ [124]) with (c :: w ++ t ++ [124]).
  pose proof (startswith_bar ($ "[[") (c :: w ++ t) X eq_refl) as E1. pose proof (startswith_bar ($ "{{") (c :: w ++ t) X eq_refl) as E2.
  pose proof (startswith_bar ($ "<<") (c :: w ++ t) X eq_refl) as E3. cbn [app] in *. rewrite <- !app_assoc in *. rewrite E1, E2, E3. reflexivity.
Qed.
Lemma cell_inl_bar : forall i t X, cell_inl i (t ++ 124 :: X) = cell_inl i (t ++ [124]).
Proof.
  induction i as [w|d|f body IH|x|a x|a x sz|u| |a body IH] using inl_ind'; intros t X; try reflexivity; try apply plain_bar.
  cbn [cell_inl]. induction IH as [|x l Hx Hl IHl]; [reflexivity|]. rewrite IHl. f_equal.
  rewrite !(app_assoc (flat_map wr_inl l)), !(app_assoc _ t). apply Hx.
Qed.
Lemma eaten_inls : forall l b X, l <> [] -> inls_ok b l = true -> cell_inls l [124] = true -> eaten (wr_inls l) (124 :: X).
Proof.
  induction l as [|i l IH]; intros b X Hn Hok Hc; [congruence|]. cbn [inls_ok cell_inls] in *. apply andb_true_iff in Hok as [O1 O2], Hc as [C1 C2].
  unfold wr_inls. cbn [flat_map]. fold (wr_inls l). destruct l as [|j l].
  - cbn [wr_inls flat_map]. rewrite app_nil_r. eapply eaten_inl; [exact O1|]. cbn [wr_inls flat_map app] in C1.
    change (124 :: X) with ([] ++ 124 :: X). rewrite cell_inl_bar. exact C1.
  - apply eaten_app; [|eapply IH; [discriminate|exact O2|exact C2]]. eapply eaten_inl; [exact O1|]. rewrite cell_inl_bar. exact C1.
Qed.

Definition cell_body (c : cell) : str := (if is_head c then $ "=" else []) ++ wr_inls (cell_text c).
Lemma bar_stop : forall b X cs k, m (RStar true cell_alt) (mk b (124 :: X) cs) k = k (mk b (124 :: X) cs).
Proof.
  intros. rewrite m_star by apply cell_alt_consuming. rewrite cell_alts. rewrite link_no by reflexivity. unfold r_macro_inline.
  rewrite macro_no by reflexivity. rewrite macro_tag_no, image_no, pre_no by reflexivity. reflexivity.
Qed.
Lemma cell_hit : forall c X b, cell_ok c = true -> exists cs,
  m cell_re (mk b (wr_cell c ++ 124 :: X) []) fin = Some (mk (rev (wr_cell c) ++ b) (124 :: X) cs) /\
  (if is_head c then cap G_head cs = Some (cell_body c) /\ cap G_cell cs = None else cap G_cell cs = Some (cell_body c)).
Proof.
  intros c X b H. unfold cell_ok in H. cbv zeta in H. rewrite !andb_true_iff in H. destruct H as [[H1 H2] H3]. unfold item_text_ok in H1. rewrite !andb_true_iff in H1.
  destruct H1 as [[[Ht Hn] Hi] _]. unfold trimmed in Ht. rewrite !andb_true_iff, !negb_true_iff in Ht. destruct Ht as [[T1 T2] T3].
  unfold wr_cell, cell_body. destruct (is_head c) eqn:Eh.
  - exists [(G_head, 61 :: wr_inls (cell_text c))]. split; [|split; reflexivity].
    unfold cell_re, seqs. rewrite m_seq. unfold c1 at 1. cbn [app]. rewrite m_chr. change (124 =? 124) with true. cbv iota.
    rewrite m_seq. unfold sps, sp. rewrite star_zero by reflexivity. rewrite m_seq, m_alt. apply orelse_some. rewrite m_grp, m_seq. unfold c1. rewrite m_chr.
    change (61 =? 61) with true. cbv iota. unfold RPlus, not_bar. rewrite m_seq.
    apply andb_true_iff in H3 as [H3 _]. destruct (wr_inls (cell_text c)) as [|d w] eqn:Ew; [discriminate|]. cbn [app]. rewrite m_chr.
    unfold no_char in H3. cbn [forallb existsb] in H3. apply andb_true_iff in H3 as [Hd H3]. rewrite orb_false_r in Hd. rewrite Hd.
    apply star_take; [|reflexivity|].
    + rewrite forallb_forall in *. intros e He. specialize (H3 e He). cbn [existsb] in H3. rewrite orb_false_r in H3. exact H3.
    + cbn [bef rest caps]. rewrite star_zero by reflexivity. unfold fin. f_equal. f_equal; [cbn [rev]; rewrite <- !app_assoc; reflexivity|].
      f_equal. f_equal. exact (firstn_grp (61 :: d :: w) (124 :: X)).
  - assert (Hne : cell_text c <> []) by (intros E; rewrite E in T3; discriminate).
    pose proof (eaten_inls (cell_text c) [] X Hne Hi H3 (124 :: b) []) as (cs' & E). cbn [app] in E. rewrite app_nil_r in E.
    exists ((G_cell, wr_inls (cell_text c)) :: cs'). split.
    + unfold cell_re, seqs. rewrite m_seq. unfold c1 at 1. cbn [app]. rewrite m_chr. change (124 =? 124) with true. cbv iota.
      rewrite m_seq. unfold sps at 1, sp at 1. rewrite star_zero by (destruct (wr_inls (cell_text c)); [discriminate|exact T1]).
      rewrite m_seq, m_alt.
      match goal with |- orelse ?a _ = _ => assert (a = None) as -> end.
      { apply grp_none. intro k'. rewrite m_seq. unfold c1. destruct (wr_inls (cell_text c)) as [|d w]; [discriminate|]. cbn [app head_is] in *. rewrite m_chr.
        apply negb_true_iff in H2. rewrite H2. reflexivity. }
      cbn [orelse]. rewrite m_grp. unfold RPlus. rewrite m_seq. fold cell_alt. apply E. rewrite bar_stop. cbn [bef rest caps].
      unfold sps, sp. rewrite star_zero by reflexivity. unfold fin. f_equal. f_equal; [cbn [rev]; rewrite <- !app_assoc; reflexivity|].
      f_equal. f_equal. apply firstn_grp.
    + reflexivity.
Qed.
(** the cells of a row *)
Definition cell_m (c : cell) (x : mtch) : Prop :=
  if is_head c then group G_head x = Some (cell_body c) /\ group G_cell x = None else group G_cell x = Some (cell_body c).
Lemma cells_scan : forall r b, forallb cell_ok r = true -> exists ms,
  mts (scan cell_re 0 b (wr_row r)) = ms /\ Forall2 cell_m r ms.
Proof.
  induction r as [|c r IH]; intros b H.
  - exists []. split; [|constructor]. unfold wr_row. cbn [flat_map app]. rewrite scan_miss.
    + cbn [mts flat_map app]. rewrite scan_end, at_pos_miss; reflexivity.
    + unfold cell_re, seqs. rewrite m_seq. unfold c1 at 1. rewrite m_chr. change (124 =? 124) with true. cbv iota.
      rewrite m_seq. unfold sps at 1, sp at 1. rewrite star_zero by exact I. rewrite m_seq, m_alt. reflexivity.
  - cbn [forallb] in H. apply andb_true_iff in H as [Hc Hr].
    assert (E : exists X, flat_map wr_cell r ++ [124] = 124 :: X) by (destruct r; eexists; reflexivity). destruct E as (X & E).
    destruct (cell_hit c X b Hc) as (cs & Hm & Hg).
    destruct (IH (rev (wr_cell c) ++ b) Hr) as (ms & E2 & F2).
    exists (mkm (wr_cell c) cs :: ms). split.
    + unfold wr_row in *. cbn [flat_map]. rewrite <- app_assoc. change ($ "|") with [124] in *. rewrite E in *.
      rewrite (scan_hit _ _ (wr_cell c) (124 :: X) cs); [|discriminate|exact Hm]. cbn [mts flat_map app]. unfold mts in E2. rewrite E2. reflexivity.
    + constructor; [|exact F2]. exact Hg.
Qed.
(** the shape of a row *)
Lemma row_shape : forall r, r <> [] -> forallb cell_ok r = true -> exists R, wr_row r = bar_row R /\ R <> [] /\ no_char [10; 13] R = true /\
  last_is (fun c => (124 =? c) || is_space c) R = false.
Proof.
  assert (B : forall c, cell_ok c = true -> cell_body c <> [] /\ no_char [10; 13] (cell_body c) = true /\ last_is (fun c => (124 =? c) || is_space c) (cell_body c) = false).
  { intros c H. unfold cell_ok in H. cbv zeta in H. rewrite !andb_true_iff in H. destruct H as [[H1 H2] H3]. unfold item_text_ok in H1. rewrite !andb_true_iff in H1.
    destruct H1 as [[[Ht Hn] Hi] _]. unfold trimmed in Ht. rewrite !andb_true_iff, !negb_true_iff in Ht. destruct Ht as [[T1 T2] T3].
    assert (Hne : wr_inls (cell_text c) <> []) by (intros E; rewrite E in T3; discriminate).
    unfold cell_body. split; [|split].
    - destruct (is_head c); [discriminate|exact Hne].
    - destruct (is_head c); exact Hn.
    - rewrite last_is_suffix by exact Hne. rewrite last_is_orb, T2, orb_false_r.
      destruct (is_head c).
      + apply andb_true_iff in H3 as [H3 _]. unfold last_is. destruct (rev (wr_inls (cell_text c))) as [|d v] eqn:R; [reflexivity|]. cbn [head_is].
        destruct (N.eqb_spec 124 d); [|reflexivity]. subst d. exfalso. apply (no_char_In _ _ 124 H3); [|left; reflexivity]. rewrite in_rev, R. left. reflexivity.
      + enough (G : forall l b, inls_ok b l = true -> cell_inls l [124] = true -> wr_inls l <> [] -> last_is (N.eqb 124) (wr_inls l) = false) by (eapply G; eassumption).
        clear. induction l as [|i l IH]; intros b Hi H3 Hne; [cbn in Hne; congruence|].
        cbn [inls_ok cell_inls] in *. apply andb_true_iff in Hi as [I1 I2], H3 as [C1 C2]. unfold wr_inls. cbn [flat_map]. fold (wr_inls l).
        destruct (wr_inls l) as [|e v] eqn:El.
        * rewrite app_nil_r. cbn [app] in C1. clear - I1 C1.
          assert (PC : forall w t, plain_cell w t = true -> last_is (N.eqb 124) w = false).
          { clear. intros w t H. unfold last_is. destruct (rev w) as [|d r] eqn:R; [reflexivity|]. cbn [head_is].
            destruct (N.eqb_spec 124 d); [|reflexivity]. subst d. exfalso. assert (Hi : In 124 w) by (rewrite in_rev, R; left; reflexivity). clear R.
            induction w as [|c w IH]; [contradiction|]. cbn [plain_cell] in H. rewrite !andb_true_iff, !negb_true_iff in H. destruct H as [[H1 _] H2].
            destruct Hi as [->|Hi]; [discriminate|]. auto. }
          destruct i as [w|d|f body|x|a x|a x sz|u| |a body]; try (exact (PC _ [124] C1)); cbn [wr_inl].
          -- rewrite app_assoc, last_is_suffix by discriminate. destruct f; reflexivity.
          -- rewrite app_assoc, last_is_suffix by discriminate. reflexivity.
          -- rewrite !app_assoc, last_is_suffix by discriminate. reflexivity.
          -- rewrite !app_assoc, last_is_suffix by discriminate. reflexivity.
          -- rewrite !app_assoc, last_is_suffix by discriminate. reflexivity.
        * rewrite last_is_suffix by discriminate. eapply IH; [exact I2|exact C2|discriminate]. }
  intros r Hr H. destruct r as [|c r]; [congruence|]. exists (cell_body c ++ flat_map wr_cell r).
  assert (W : forall c, wr_cell c = 124 :: cell_body c) by reflexivity.
  split; [|split; [|split]].
  - unfold wr_row, bar_row. cbn [flat_map]. rewrite W. rewrite <- !app_assoc. reflexivity.
  - cbn [forallb] in H. apply andb_true_iff in H as [Hc _]. destruct (B c Hc) as [HB _]. destruct (cell_body c); [congruence|discriminate].
  - clear Hr. revert c H. induction r as [|d r IH]; intros c H; cbn [forallb] in H; apply andb_true_iff in H as [Hc H]; destruct (B c Hc) as (_ & HB & _).
    + cbn [flat_map]. rewrite app_nil_r. exact HB.
    + unfold no_char in *. rewrite forallb_app, HB. cbn [andb flat_map]. rewrite W. cbn [app forallb]. apply andb_true_intro. split; [reflexivity|]. apply (IH d). exact H.
  - clear Hr. revert c H. induction r as [|d r IH]; intros c H; cbn [forallb] in H; apply andb_true_iff in H as [Hc H]; destruct (B c Hc) as (_ & _ & HB).
    + cbn [flat_map]. rewrite app_nil_r. exact HB.
    + cbn [flat_map]. rewrite W. cbn [app]. change (124 :: cell_body d ++ flat_map wr_cell r) with ([124] ++ (cell_body d ++ flat_map wr_cell r)).
      rewrite app_assoc. rewrite last_is_suffix; [apply IH; exact H|]. cbn [forallb] in H. apply andb_true_iff in H as [Hd _]. destruct (B d Hd) as [HB' _]. destruct (cell_body d); [congruence|discriminate].
Qed.
