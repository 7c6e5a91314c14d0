(** * How the block rules match unambiguous blocks *)
From Coq Require Import String List Arith NArith ZArith Bool Lia.
From Verif Require Import PyStr PyStrFacts GNames Regex Rules RegexFacts RegexRun Utils Spec4 Spec5 InlineRun.
Import ListNotations.
Open Scope N_scope.

Definition bol (b : str) : bool := match b with [] => true | c :: _ => c =? 10 end.
Definition eol (t : str) : bool := match t with [] => true | c :: _ => c =? 10 end.
Lemma m_bol : forall b t cs k, m RBol (mk b t cs) k = if bol b then k (mk b t cs) else None.
Proof. intros [|c b] t cs k; reflexivity. Qed.
Lemma m_eol : forall b t cs k, m REol (mk b t cs) k = if eol t then k (mk b t cs) else None.
Proof. intros b [|c t] cs k; reflexivity. Qed.
Lemma m_eps : forall s k, m REps s k = k s.
Proof. reflexivity. Qed.

(** only white space up to the end of the line *)
Fixpoint blank (t : str) : bool :=
  match t with [] => true | c :: t' => (c =? 10) || (is_space c && blank t') end.
Lemma blank_eol : forall z y, forallb is_space z = true -> blank (z ++ y) = false -> eol y = false.
Proof.
  induction z as [|c z IH]; intros y Hz H.
  - destruct y as [|c y]; [discriminate|]. cbn [app blank] in H. apply orb_false_iff in H as [H _]. exact H.
  - cbn [forallb] in Hz. apply andb_true_iff in Hz as [Hc Hz]. cbn [app blank] in H. rewrite Hc in H.
    apply orb_false_iff in H as [_ H]. cbn [andb] in H. apply IH; assumption.
Qed.
Lemma blank_no : forall t b cs k, blank t = false -> m sps (mk b t cs) (fun s => m REol s k) = None.
Proof.
  intros t b cs k H. unfold sps, sp. apply star_none. intros z y -> Hz. rewrite m_eol.
  rewrite (blank_eol z y Hz H). reflexivity.
Qed.
Lemma blank_line_no : forall w t, truthy w = true -> head_is is_space w = false -> blank (w ++ t) = false.
Proof.
  intros [|c w] t H1 H2; [discriminate|]. cbn [head_is] in H2. cbn [app blank]. rewrite H2.
  destruct (N.eqb_spec c 10) as [->|]; [discriminate|reflexivity].
Qed.
Lemma stop_space : forall w t, truthy w = true -> head_is is_space w = false -> stop is_space (w ++ t).
Proof. intros [|c w] t H1 H2; [discriminate|exact H2]. Qed.

(** ** rules that fail *)
Lemma line_no : forall b t cs k, bol b = false \/ blank t = false -> m r_line (mk b t cs) k = None.
Proof.
  intros b t cs k H. apply grp_none. intro k'. unfold seqs. rewrite m_seq, m_bol.
  destruct (bol b); [|reflexivity]. destruct H as [H|H]; [discriminate|]. rewrite m_seq. apply blank_no. exact H.
Qed.
Lemma head_no : forall b t cs k, bol b = false \/ head_is (N.eqb 61) t = false -> m r_head (mk b t cs) k = None.
Proof.
  intros b t cs k H. apply grp_none. intro k'. unfold seqs. rewrite m_seq, m_bol.
  destruct (bol b); [|reflexivity]. destruct H as [H|H]; [discriminate|]. rewrite m_seq. apply grp_none. intro k2.
  unfold RPlus. rewrite m_seq. unfold c1. destruct t as [|c t]; [reflexivity|]. rewrite m_chr. cbn [head_is] in H. rewrite H. reflexivity.
Qed.
(** no rule that starts with optional white space *)
Definition sp_no (p : str -> bool) (t : str) : Prop := forall z y, t = z ++ y -> forallb is_space z = true -> p y = false.
Lemma sep_no : forall b t cs k, bol b = false \/ sp_no (startswith ($ "----")) t -> m r_separator (mk b t cs) k = None.
Proof.
  intros b t cs k H. unfold r_separator, seqs. rewrite m_seq. apply grp_none. intro k'. rewrite m_seq, m_bol.
  destruct (bol b); [|reflexivity]. destruct H as [H|H]; [discriminate|]. rewrite m_seq. unfold sps, sp. apply star_none.
  intros z y E Hz. apply m_lit_none. apply (H z y E Hz).
Qed.
Lemma preb_no : forall b t cs k, bol b = false \/ startswith ($ "{{{") t = false \/ blank (skipn 3 t) = false -> m r_pre_block (mk b t cs) k = None.
Proof.
  intros b t cs k H. apply grp_none. intro k'. unfold seqs. rewrite m_seq, m_bol.
  destruct (bol b); [|reflexivity]. destruct H as [H|H]; [discriminate|]. rewrite m_seq, m_lit_split.
  destruct (startswith ($ "{{{") t); [|reflexivity]. destruct H as [H|H]; [discriminate|].
  rewrite m_seq. unfold sps, sp. apply star_none. intros z y E Hz. rewrite m_seq, m_eol.
  change (List.length ($ "{{{")) with 3%nat in E. rewrite E in H. rewrite (blank_eol z y Hz H). reflexivity.
Qed.
Definition list_start (t : str) : bool :=
  match t with c :: d :: _ => bullet c && negb (bullet d) | _ => false end.
Lemma list_no : forall b t cs k, bol b = false \/ sp_no list_start t -> m r_list (mk b t cs) k = None.
Proof.
  intros b t cs k H. apply grp_none. intro k'. unfold seqs. rewrite m_seq, m_bol.
  destruct (bol b); [|reflexivity]. destruct H as [H|H]; [discriminate|]. rewrite m_seq. unfold sps, sp. apply star_none.
  intros z y E Hz. specialize (H z y E Hz). rewrite m_seq, m_alt, !m_seq. unfold c1.
  destruct y as [|c [|d y]]; [reflexivity| |].
  - rewrite !m_chr. destruct (42 =? c), (35 =? c); reflexivity.
  - rewrite !m_chr. cbn [list_start] in H. unfold bullet in H. rewrite !(N.eqb_sym 42), !(N.eqb_sym 35). unfold is_bullet.
    destruct (c =? 42) eqn:E1, (c =? 35) eqn:E2; cbn [orb andb] in H; try reflexivity; apply negb_false_iff in H; rewrite H; reflexivity.
Qed.
Lemma table_no : forall b t cs k, bol b = false \/ sp_no (head_is (N.eqb 124)) t -> m r_table (mk b t cs) k = None.
Proof.
  intros b t cs k H. unfold r_table, seqs. rewrite m_seq, m_bol.
  destruct (bol b); [|reflexivity]. destruct H as [H|H]; [discriminate|]. rewrite m_seq. unfold sps, sp. apply star_none.
  intros z y E Hz. specialize (H z y E Hz). rewrite m_seq. apply grp_none. intro k2. rewrite m_seq. unfold c1.
  destruct y as [|c y]; [reflexivity|]. rewrite m_chr. cbn [head_is] in H. rewrite H. reflexivity.
Qed.
Lemma sp_no_here : forall (p : str -> bool) t, p t = false -> head_is is_space t = false -> sp_no p t.
Proof.
  intros p t Hp Hs z y -> Hz. destruct z as [|c z]; [exact Hp|]. cbn [forallb] in Hz. cbn [app head_is] in Hs. rewrite Hs in Hz. discriminate.
Qed.
(** ... after one newline *)
Lemma sp_no_nl : forall (p : str -> bool) t, p (10 :: t) = false -> p t = false -> head_is is_space t = false -> sp_no p (10 :: t).
Proof.
  intros p t H1 H2 Hs z y E Hz. destruct z as [|c z]; [cbn in E; subst y; exact H1|]. injection E as <- E.
  cbn [forallb] in Hz. apply andb_true_iff in Hz as [_ Hz]. exact (sp_no_here p t H2 Hs z y E Hz).
Qed.

Lemma block_alts : forall blog s k, m (block_re blog) s k =
  orelse (m r_macro_block s k) (orelse (m r_line s k) (orelse (m r_head s k) (orelse (m r_separator s k)
  (orelse (m r_pre_block s k) (orelse (m r_list s k) (orelse (m r_table s k) (m (r_text blog) s k))))))).
Proof. reflexivity. Qed.

(** ** text *)
Lemma line_end_no : forall b t cs k, head_is (N.eqb 92) b = true \/ match t with 10 :: t' => head_is (N.eqb 10) t' | _ => true end = true ->
  m r_line_end (mk b t cs) k = None.
Proof.
  intros b t cs k H. unfold r_line_end, seqs. rewrite m_seq, m_behind_no.
  destruct (head_is (N.eqb 92) b); [reflexivity|]. destruct H as [H|H]; [discriminate|]. rewrite m_seq, m_eol.
  destruct t as [|c t]; [reflexivity|]. cbn [eol]. destruct (N.eqb_spec c 10) as [->|]; [|reflexivity].
  rewrite m_seq. unfold c1. rewrite m_chr. change (10 =? 10) with true. cbv iota.
  change (m (RNotAhead ?r) ?s ?k) with (match m r s (fun s' => Some s') with Some _ => None | None => k s end).
  destruct (m (RSeq sps REol) (mk (10 :: b) t cs) (fun s' => Some s')) eqn:E; [reflexivity|]. exfalso.
  assert (M : Mt (RSeq sps REol) (mk (10 :: b) t cs) (mk (10 :: b) t cs)).
  { apply Mt_seq with (mk (10 :: b) t cs); [apply Mt_star0|].
    destruct t as [|c t]; [discriminate|]. cbn [head_is] in H. apply N.eqb_eq in H. subst c. apply Mt_eol. right. exists t. reflexivity. }
  apply (m_complete (RSeq sps REol) eq_refl _ _ (fun s' => Some s') M) in E; [exact E|discriminate].
Qed.
Lemma line_end_hit : forall b t cs k, head_is (N.eqb 92) b = false -> blank t = false ->
  m r_line_end (mk b (10 :: t) cs) k = k (mk (10 :: b) t cs).
Proof.
  intros b t cs k Hb Ht. unfold r_line_end, seqs. rewrite m_seq, m_behind_no, Hb, m_seq, m_eol.
  cbn [eol]. change (10 =? 10) with true. cbv iota. rewrite m_seq. unfold c1. rewrite m_chr. change (10 =? 10) with true. cbv iota.
  change (m (RNotAhead ?r) ?s ?k) with (match m r s (fun s' => Some s') with Some _ => None | None => k s end).
  rewrite m_seq, blank_no by exact Ht. reflexivity.
Qed.

(** a text line: what [.+] takes *)
Definition tail (t : str) : bool := match t with [] => true | c :: _ => c =? 10 end.
Lemma tail_stop : forall t, tail t = true -> stop is_dot t.
Proof. intros [|c t] H; [exact I|]. cbn in H. apply N.eqb_eq in H. subst c. reflexivity. Qed.
Lemma text_grp : forall g w t b cs k r, truthy w = true -> no_char [10; 13] w = true -> tail t = true ->
  k (mk (rev w ++ b) t ((g, w) :: cs)) = Some r -> m (RGrp g (RPlus true dot)) (mk b (w ++ t) cs) k = Some r.
Proof.
  intros g w t b cs k r Hw Hn Ht Hk. apply (no_char_dot [10; 13]) in Hn; [|left; reflexivity].
  destruct w as [|c w]; [discriminate|]. cbn [forallb] in Hn. apply andb_true_iff in Hn as [Hc Hn].
  rewrite m_grp. unfold RPlus, dot. rewrite m_seq. cbn [app]. rewrite m_chr, Hc.
  apply star_take; [exact Hn|apply tail_stop; exact Ht|]. cbn [bef rest caps].
  change (c :: w ++ t) with ((c :: w) ++ t). rewrite firstn_grp. cbn [rev] in Hk. rewrite <- app_assoc in Hk. exact Hk.
Qed.
Lemma text_grp_no : forall g b t cs k, tail t = true -> m (RGrp g (RPlus true dot)) (mk b t cs) k = None.
Proof. intros. apply grp_none. intro k'. unfold RPlus, dot. rewrite m_seq. apply m_chr_stop. apply tail_stop. exact H. Qed.

(** the rules before the text rule do not match at the start of a plain line *)
Lemma line_head : forall w p t, truthy w = true -> head_is p (w ++ t) = head_is p w.
Proof. intros [|c w] p t H; [discriminate|reflexivity]. Qed.
Lemma startswith_line : forall p w t, no_char [10; 13] p = true -> tail t = true -> startswith p (w ++ t) = startswith p w.
Proof.
  induction p as [|c p IH]; intros w t Hp Ht; [reflexivity|]. cbn in Hp. apply andb_true_iff in Hp as [Hc Hp].
  destruct w as [|d w].
  - cbn [app startswith]. destruct t as [|d t]; [reflexivity|]. cbn in Ht. apply N.eqb_eq in Ht. subst d.
    destruct (N.eqb_spec c 10) as [->|]; [discriminate|reflexivity].
  - cbn [app startswith]. rewrite IH; [reflexivity|exact Hp|exact Ht].
Qed.
Lemma blank_tail : forall w t, no_char [10; 13] w = true -> tail t = true -> blank (w ++ t) = forallb is_space w.
Proof.
  induction w as [|c w IH]; intros t Hn Ht.
  - destruct t as [|c t]; [reflexivity|]. cbn in Ht. apply N.eqb_eq in Ht. subst c. reflexivity.
  - unfold no_char in Hn. cbn [forallb existsb] in Hn. apply andb_true_iff in Hn as [Hc Hn]. apply negb_true_iff in Hc.
    apply orb_false_iff in Hc as [Hc _]. cbn [app blank forallb]. rewrite Hc. cbn [orb]. rewrite IH; [reflexivity|exact Hn|exact Ht].
Qed.
(** the starts of blocks other than macros *)
Definition start_no (w : str) : Prop :=
  head_is is_space w = false /\ head_is (N.eqb 61) w = false /\ head_is (N.eqb 124) w = false /\ startswith ($ "----") w = false /\
  startswith ($ "{{{") w && forallb is_space (skipn 3 w) = false /\ head_is bullet w && negb (head_is bullet (skipn 1 w)) = false.
Lemma block_start_no : forall w, block_start w = false -> start_no w /\ startswith ($ "<<") w = false.
Proof. intros w H. unfold block_start in H. rewrite !orb_false_iff in H. unfold start_no. tauto. Qed.
Lemma before_text_gen : forall blog w t b cs k, truthy w = true -> no_char [10; 13] w = true -> start_no w -> m r_macro_block (mk b (w ++ t) cs) k = None -> tail t = true ->
  m (block_re blog) (mk b (w ++ t) cs) k = m (r_text blog) (mk b (w ++ t) cs) k.
Proof.
  intros blog w t b cs k Hw Hn (H1 & H2 & H3 & H5 & H6 & H7) H4 Ht.
  assert (HS : head_is is_space (w ++ t) = false) by (rewrite line_head by exact Hw; exact H1).
  rewrite block_alts, H4.
  rewrite line_no by (right; apply blank_line_no; assumption).
  rewrite head_no by (right; rewrite line_head by exact Hw; exact H2).
  rewrite sep_no by (right; apply sp_no_here; [rewrite startswith_line by (reflexivity || exact Ht); exact H5|exact HS]).
  rewrite preb_no.
  2:{ right. rewrite startswith_line by (reflexivity || exact Ht). destruct (startswith ($ "{{{") w) eqn:E; [|left; reflexivity].
      right. apply startswith_app in E as (v & ->). cbn [app skipn andb] in H6 |- *. rewrite blank_tail; [exact H6| |exact Ht].
      unfold no_char in *. rewrite forallb_app in Hn. apply andb_true_iff in Hn as [_ Hn]. exact Hn. }
  rewrite list_no.
  2:{ right. apply sp_no_here; [|exact HS]. destruct w as [|c w]; [discriminate|]. cbn [head_is skipn] in H7. cbn [app list_start].
      destruct (w ++ t) as [|d y] eqn:E; [reflexivity|]. destruct (bullet c); [|reflexivity]. cbn [andb] in *. apply negb_false_iff in H7.
      destruct w as [|d' w]; [discriminate|]. cbn [head_is] in H7. injection E as <- _. rewrite H7. reflexivity. }
  rewrite table_no by (right; apply sp_no_here; [rewrite line_head by exact Hw; exact H3|exact HS]).
  reflexivity.
Qed.
Lemma plain_no_macro : forall w t b cs k, block_start w = false -> tail t = true -> m r_macro_block (mk b (w ++ t) cs) k = None.
Proof.
  intros w t b cs k Hs Ht. apply block_start_no in Hs as [Hs H4].
  unfold r_macro_block. apply macro_no. rewrite (startswith_line ($ "<<")) by (reflexivity || exact Ht). exact H4.
Qed.

(** a line in blog mode *)
Lemma blog_line_gen : forall w t b, truthy w = true -> no_char [10; 13] w = true -> start_no w -> (forall k, m r_macro_block (mk b (w ++ t) []) k = None) -> tail t = true ->
  last_is (N.eqb 92) w = true \/ match t with 10 :: t' => head_is (N.eqb 10) t' | _ => true end = true ->
  m (block_re true) (mk b (w ++ t) []) fin = Some (mk (rev w ++ b) t [(G_text, w)]).
Proof.
  intros w t b Hw Hn Hs Hm Ht He. rewrite before_text_gen by (assumption || apply Hm). unfold r_text. rewrite m_seq.
  apply text_grp; try assumption. unfold ROpt. rewrite m_alt. rewrite grp_none; [reflexivity|]. intro k'. apply line_end_no.
  destruct He as [He|He]; [left|right; exact He]. unfold last_is in He. destruct (rev w) as [|c r]; [discriminate|exact He].
Qed.
Lemma blog_line : forall w t b, truthy w = true -> no_char [10; 13] w = true -> block_start w = false -> tail t = true ->
  last_is (N.eqb 92) w = true \/ match t with 10 :: t' => head_is (N.eqb 10) t' | _ => true end = true ->
  m (block_re true) (mk b (w ++ t) []) fin = Some (mk (rev w ++ b) t [(G_text, w)]).
Proof. intros w t b Hw Hn Hs Ht He. apply blog_line_gen; try assumption; [apply block_start_no; exact Hs|]. intro k. apply plain_no_macro; assumption. Qed.
Lemma blog_line_break_gen : forall w t b, truthy w = true -> no_char [10; 13] w = true -> start_no w -> (forall k, m r_macro_block (mk b (w ++ [10] ++ t) []) k = None) ->
  last_is (N.eqb 92) w = false -> blank t = false ->
  m (block_re true) (mk b ((w ++ [10]) ++ t) []) fin = Some (mk (rev (w ++ [10]) ++ b) t [(G_break, [10]); (G_text, w)]).
Proof.
  intros w t b Hw Hn Hs Hm Hb Ht. rewrite <- app_assoc. rewrite before_text_gen by (assumption || reflexivity || apply Hm). unfold r_text. rewrite m_seq.
  apply text_grp; try assumption; [reflexivity|]. unfold ROpt. rewrite m_alt. apply orelse_some. cbn [app]. rewrite m_grp.
  rewrite line_end_hit; [| |exact Ht].
  - unfold fin. cbn [bef rest caps]. rewrite rev_app_distr. cbn [rev app]. f_equal. f_equal. f_equal. f_equal. exact (firstn_grp [10] t).
  - unfold last_is in Hb. destruct w as [|c w]; [discriminate|]. rewrite head_is_app by apply rev_cons_ne. exact Hb.
Qed.
Lemma blog_line_break : forall w t b, truthy w = true -> no_char [10; 13] w = true -> block_start w = false ->
  last_is (N.eqb 92) w = false -> blank t = false ->
  m (block_re true) (mk b ((w ++ [10]) ++ t) []) fin = Some (mk (rev (w ++ [10]) ++ b) t [(G_break, [10]); (G_text, w)]).
Proof. intros w t b Hw Hn Hs Hb Ht. apply blog_line_break_gen; try assumption; [apply block_start_no; exact Hs|]. intro k. apply plain_no_macro; [assumption|reflexivity]. Qed.
(** a line in the other mode: at the start of a block ... *)
Lemma wiki_line_gen : forall w t b, truthy w = true -> no_char [10; 13] w = true -> start_no w -> (forall k, m r_macro_block (mk b (w ++ t) []) k = None) -> tail t = true ->
  m (block_re false) (mk b (w ++ t) []) fin = Some (mk (rev w ++ b) t [(G_text, w)]).
Proof.
  intros w t b Hw Hn Hs Hm Ht. rewrite before_text_gen by (assumption || apply Hm). unfold r_text. rewrite m_seq. unfold ROpt. rewrite m_alt.
  rewrite grp_none.
  2:{ intro k'. apply line_end_no. right. unfold no_char in Hn. destruct w as [|c w]; [discriminate|]. cbn [app]. cbn [forallb existsb] in Hn.
      destruct (N.eqb_spec c 10) as [->|]; [discriminate|]. destruct c as [|p]; [reflexivity|].
      do 4 (destruct p as [p|p|]; try reflexivity; try congruence). }
  cbn [orelse]. rewrite m_eps. apply text_grp; try assumption. reflexivity.
Qed.
Lemma wiki_line : forall w t b, truthy w = true -> no_char [10; 13] w = true -> block_start w = false -> tail t = true ->
  m (block_re false) (mk b (w ++ t) []) fin = Some (mk (rev w ++ b) t [(G_text, w)]).
Proof. intros w t b Hw Hn Hs Ht. apply wiki_line_gen; try assumption; [apply block_start_no; exact Hs|]. intro k. apply plain_no_macro; assumption. Qed.
(** ... and after a line end *)
Lemma wiki_line_more : forall w t b, truthy w = true -> no_char [10; 13] w = true -> head_is is_space w = false -> tail t = true ->
  bol b = false -> head_is (N.eqb 92) b = false ->
  m (block_re false) (mk b ((10 :: w) ++ t) []) fin = Some (mk (rev (10 :: w) ++ b) t [(G_text, w); (G_space, [10])]).
Proof.
  intros w t b Hw Hn Hs Ht Hb He. cbn [app]. rewrite block_alts. unfold r_macro_block. rewrite macro_no by reflexivity.
  rewrite line_no, head_no, sep_no, preb_no, list_no, table_no by (left; exact Hb). cbn [orelse].
  unfold r_text. rewrite m_seq. unfold ROpt. rewrite m_alt. apply orelse_some. rewrite m_grp.
  rewrite line_end_hit by (exact He || apply blank_line_no; assumption). cbn [bef rest caps].
  apply text_grp; try assumption. unfold fin. f_equal. f_equal; [cbn [rev]; rewrite <- app_assoc; reflexivity|].
  f_equal. f_equal. f_equal. exact (firstn_grp [10] (w ++ t)).
Qed.
(** a line end that is not part of a match *)
Lemma newline_no : forall blog t b, bol b = false -> blog = true \/ head_is (N.eqb 92) b = true \/ head_is (N.eqb 10) t = true ->
  m (block_re blog) (mk b (10 :: t) []) fin = None.
Proof.
  intros blog t b Hb H. rewrite block_alts. unfold r_macro_block. rewrite macro_no by reflexivity.
  rewrite line_no, head_no, sep_no, preb_no, list_no, table_no by (left; exact Hb). cbn [orelse].
  destruct blog; unfold r_text; rewrite m_seq.
  - apply text_grp_no. reflexivity.
  - destruct H as [H|H]; [discriminate|]. unfold ROpt. rewrite m_alt. rewrite grp_none by (intro k'; apply line_end_no; exact H).
    cbn [orelse]. rewrite m_eps. apply text_grp_no. reflexivity.
Qed.
Lemma end_no : forall blog b, bol b = false -> m (block_re blog) (mk b [] []) fin = None.
Proof.
  intros blog b Hb. rewrite block_alts. unfold r_macro_block. rewrite macro_no by reflexivity.
  rewrite line_no, head_no, sep_no, preb_no, list_no, table_no by (left; exact Hb). cbn [orelse].
  destruct blog; unfold r_text; rewrite m_seq.
  - apply text_grp_no. reflexivity.
  - unfold ROpt. rewrite m_alt. rewrite grp_none by (intro k'; apply line_end_no; right; reflexivity).
    cbn [orelse]. rewrite m_eps. apply text_grp_no. reflexivity.
Qed.

(** ** the second line end of an empty line *)
Definition fadv (t : str) (s : st) : option st := if Nat.eqb (List.length (rest s)) (List.length t) then None else Some s.
Definition line_m : mtch := mkm [] [(G_line, [])].
Lemma solid_eol : forall X, truthy X = true -> head_is is_space X = false -> eol X = false.
Proof. intros [|c X] H1 H2; [discriminate|]. cbn [head_is eol] in *. destruct (N.eqb_spec c 10) as [->|]; [discriminate H2|reflexivity]. Qed.
Lemma gap_line : forall X b k r, truthy X = true -> head_is is_space X = false -> bol b = true ->
  k (mk b (10 :: X) [(G_line, [])]) = Some r -> m r_line (mk b (10 :: X) []) k = Some r.
Proof.
  intros X b k r H1 H2 Hb Hk. unfold r_line. rewrite m_grp. unfold seqs. rewrite m_seq, m_bol, Hb, m_seq.
  unfold sps, sp. apply (star_back is_space [] (10 :: X)); [reflexivity| |].
  - cbn [rev app]. rewrite m_eol. cbn [eol]. change (10 =? 10) with true. cbv iota. cbn [bef rest caps]. rewrite Nat.sub_diag. exact Hk.
  - intros z y' E Hne Hz. rewrite m_eol. destruct z as [|c z]; [congruence|]. injection E as <- E. cbn [forallb] in Hz.
    apply andb_true_iff in Hz as [_ Hz]. destruct z as [|d z].
    + cbn [app] in E. subst y'. rewrite solid_eol by assumption. reflexivity.
    + rewrite E in H2. cbn [app head_is forallb] in H2, Hz. rewrite H2 in Hz. discriminate.
Qed.
Lemma gap_line_adv : forall X b, truthy X = true -> head_is is_space X = false -> 
  m r_line (mk b (10 :: X) []) (fadv (10 :: X)) = None.
Proof.
  intros X b H1 H2. unfold r_line. rewrite m_grp. unfold seqs. rewrite m_seq, m_bol. destruct (bol b); [|reflexivity]. rewrite m_seq.
  unfold sps, sp. apply star_none. intros z y E Hz. rewrite m_eol. destruct z as [|c z].
  - cbn [app] in E. subst y. cbn [eol]. change (10 =? 10) with true. cbv iota. unfold fadv. cbn [rest]. rewrite Nat.eqb_refl. reflexivity.
  - injection E as <- E. cbn [forallb] in Hz. apply andb_true_iff in Hz as [_ Hz]. destruct z as [|d z].
    + cbn [app] in E. subst y. rewrite solid_eol by assumption. reflexivity.
    + rewrite E in H2. cbn [app head_is forallb] in H2, Hz. rewrite H2 in Hz. discriminate.
Qed.
Lemma gap_first : forall blog X b, truthy X = true -> head_is is_space X = false -> bol b = true ->
  try_at (block_re blog) false b (10 :: X) = Some line_m.
Proof.
  intros blog X b H1 H2 Hb. unfold try_at. cbn [andb].
  rewrite block_alts. unfold r_macro_block. rewrite macro_no by reflexivity. cbn [orelse].
  rewrite (gap_line X b _ (mk b (10 :: X) [(G_line, [])])) by (assumption || reflexivity).
  cbn [orelse rest caps]. rewrite Nat.sub_diag. reflexivity.
Qed.
Lemma try_adv : forall r b t, try_at r true b t =
  match m r (mk b t []) (fadv t) with Some s' => Some (mkm (firstn (List.length t - List.length (rest s')) t) (caps s')) | None => None end.
Proof. reflexivity. Qed.
Lemma at_pos_gap : forall blog X b, truthy X = true -> head_is is_space X = false -> bol b = true ->
  at_pos (block_re blog) b (10 :: X) = line_m :: match try_at (block_re blog) true b (10 :: X) with None => [] | Some y => [y] end.
Proof.
  intros blog X b H1 H2 Hb. unfold at_pos. rewrite gap_first by assumption. cbn [mtxt line_m].
  destruct (try_at (block_re blog) true b (10 :: X)); reflexivity.
Qed.
(** ... when nothing else is matched there *)
Lemma gap_lazy : forall X b, truthy X = true -> head_is is_space X = false -> bol b = true ->
  startswith ($ "----") X = false -> list_start X = false -> head_is (N.eqb 124) X = false ->
  scan (block_re true) 0 b (10 :: X) = inr line_m :: Datatypes.inl 10 :: scan (block_re true) 0 (10 :: b) X.
Proof.
  intros X b H1 H2 Hb H3 H4 H5. apply scan_empty_match; [|reflexivity]. rewrite at_pos_gap by assumption.
  rewrite try_adv. rewrite block_alts. unfold r_macro_block. rewrite macro_no by reflexivity.
  rewrite gap_line_adv by assumption. rewrite head_no by (right; reflexivity).
  rewrite sep_no by (right; apply sp_no_nl; [reflexivity|exact H3|exact H2]).
  rewrite preb_no by (right; left; reflexivity).
  rewrite list_no by (right; apply sp_no_nl; [destruct X; reflexivity|exact H4|exact H2]).
  rewrite table_no by (right; apply sp_no_nl; [reflexivity|exact H5|exact H2]).
  cbn [orelse]. unfold r_text. rewrite m_seq. rewrite text_grp_no by reflexivity. reflexivity.
Qed.
Lemma scan_adv : forall blog b w t cs, truthy (w ++ t) = true -> head_is is_space (w ++ t) = false -> bol b = true ->
  m (block_re blog) (mk b ((10 :: w) ++ t) []) (fadv ((10 :: w) ++ t)) = Some (mk (rev (10 :: w) ++ b) t cs) ->
  scan (block_re blog) 0 b ((10 :: w) ++ t) = inr line_m :: inr (mkm (10 :: w) cs) :: scan (block_re blog) 0 (rev (10 :: w) ++ b) t.
Proof.
  intros blog b w t cs H1 H2 Hb Hm. apply scan_two; [|reflexivity|discriminate]. cbn [app]. rewrite at_pos_gap by assumption.
  rewrite try_adv. cbn [app] in Hm. rewrite Hm. cbn [rest caps]. f_equal. f_equal. f_equal. exact (firstn_grp (10 :: w) t).
Qed.
Lemma fadv_hit : forall w t b cs, w <> [] -> fadv (w ++ t) (mk b t cs) = Some (mk b t cs).
Proof.
  intros w t b cs H. unfold fadv. cbn [rest]. rewrite app_length. destruct w; [congruence|]. cbn [List.length].
  destruct (Nat.eqb_spec (List.length t) (S (List.length w) + List.length t)); [lia|reflexivity].
Qed.
Lemma wiki_gap_line_gen : forall w t b, truthy w = true -> no_char [10; 13] w = true -> start_no w -> tail t = true -> bol b = true ->
  scan (block_re false) 0 b ((10 :: w) ++ t) =
  inr line_m :: inr (mkm (10 :: w) [(G_text, w); (G_space, [10])]) :: scan (block_re false) 0 (rev (10 :: w) ++ b) t.
Proof.
  intros w t b Hw Hn (H1 & H2 & H3 & H5 & H6 & H7) Ht Hb.
  assert (HS : head_is is_space (w ++ t) = false) by (rewrite line_head by exact Hw; exact H1).
  apply scan_adv; [destruct w; [discriminate|reflexivity]|exact HS|exact Hb|]. cbn [app].
  rewrite block_alts. unfold r_macro_block. rewrite macro_no by reflexivity.
  rewrite gap_line_adv by (exact HS || (destruct w; [discriminate|reflexivity])). rewrite head_no by (right; reflexivity).
  rewrite sep_no by (right; apply sp_no_nl; [reflexivity|rewrite startswith_line by (reflexivity || exact Ht); exact H5|exact HS]).
  rewrite preb_no by (right; left; reflexivity).
  rewrite list_no.
  2:{ right. apply sp_no_nl; [destruct w; [discriminate|reflexivity]| |exact HS].
      destruct w as [|c w]; [discriminate|]. cbn [head_is skipn] in H7. cbn [app list_start].
      destruct (w ++ t) as [|d y] eqn:E; [reflexivity|]. destruct (bullet c); [|reflexivity]. cbn [andb] in *. apply negb_false_iff in H7.
      destruct w as [|d' w]; [discriminate|]. cbn [head_is] in H7. injection E as <- _. rewrite H7. reflexivity. }
  rewrite table_no by (right; apply sp_no_nl; [reflexivity|rewrite line_head by exact Hw; exact H3|exact HS]).
  cbn [orelse]. unfold r_text. rewrite m_seq. unfold ROpt. rewrite m_alt. apply orelse_some. rewrite m_grp.
  rewrite line_end_hit.
  - cbn [bef rest caps]. apply text_grp; try assumption.
    change (10 :: w ++ t) with ((10 :: w) ++ t). rewrite fadv_hit by discriminate. f_equal.
    f_equal; [cbn [rev]; rewrite <- app_assoc; reflexivity|]. f_equal. f_equal. f_equal. exact (firstn_grp [10] (w ++ t)).
  - destruct b as [|c b]; [reflexivity|]. cbn in Hb. apply N.eqb_eq in Hb. subst c. reflexivity.
  - apply blank_line_no; [exact Hw|exact H1].
Qed.
Lemma wiki_gap_line : forall w t b, truthy w = true -> no_char [10; 13] w = true -> block_start w = false -> tail t = true -> bol b = true ->
  scan (block_re false) 0 b ((10 :: w) ++ t) =
  inr line_m :: inr (mkm (10 :: w) [(G_text, w); (G_space, [10])]) :: scan (block_re false) 0 (rev (10 :: w) ++ b) t.
Proof. intros w t b Hw Hn Hs Ht Hb. apply wiki_gap_line_gen; try assumption. apply block_start_no. exact Hs. Qed.
