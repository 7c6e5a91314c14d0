(** * A page that breaks off in a tag or a reference *)
From Coq Require Import String List Arith NArith ZArith Bool Lia.
From Verif Require Import PyStr PyStrFacts GNames Regex RegexFacts RegexRun Rules Utils Res HtmlTools HtmlTok HtmlTokFacts HtmlParser Safety Spec2 TreeFacts Spec10 TokRun TagTok StripRun Spec11 CleanRun CleanDoc Spec29 Spelling HtmlBase Html2X SpellDoc Spec31 Soup AttrSoup Relaid Cut.
From Verif Require Spec40 Spec42.
Import ListNotations.
Open Scope N_scope.

(** ** strip_html *)
Lemma gt_needed : forall b s k, ~ In 62 s -> m strip_html_re (mk b s []) k = None.
Proof.
  intros b s k N. apply m_none. intros s' H. exfalso. unfold strip_html_re, seqs in H.
  assert (K : forall r1 r2 s1 s2, Mt (RSeq r1 r2) s1 s2 -> exists s3, Mt r1 s1 s3 /\ Mt r2 s3 s2) by (intros r1 r2 s1 s2 X; inversion X; subst; eauto).
  assert (SUB : forall r s1 s2, Mt r s1 s2 -> ~ In 62 (rest s1) -> ~ In 62 (rest s2)).
  { intros r s1 s2 X NN I'. apply Mt_ext in X as (w & cs & X & _). apply NN. rewrite X. apply in_or_app. right. exact I'. }
  repeat match type of H with Mt (RSeq _ _) ?s1 _ => apply K in H as (? & ?M & H) end.
  assert (X : forall s1 s2, Mt (c1 62) s1 s2 -> In 62 (rest s1)).
  { intros s1 s2 X. inversion X; subst. match goal with E : (62 =? _) = true |- _ => apply N.eqb_eq in E; subst end. left. reflexivity. }
  match goal with Z : Mt (c1 62) ?s1 _ |- _ => apply X in Z; assert (~ In 62 (rest s1)); [|contradiction] end.
  repeat match goal with Z : Mt _ ?s0 ?s1 |- ~ In 62 (rest ?s1) => apply (SUB _ _ _ Z); clear Z end. exact N.
Qed.
Lemma rsub_none : forall s b, ~ In 62 s -> rsub b s = s.
Proof.
  induction s as [|c s IH]; intros b N; [reflexivity|]. rewrite rsub_miss by (apply gt_needed; exact N). f_equal. apply IH. intro I'. apply N. right. exact I'.
Qed.
Theorem rsub_tail : forall t, ~ In 62 t -> stop is_space t -> forall ps st b, Forall pc_fine ps -> sst_fine st -> rsub b (held st ++ pcs_src ps ++ t) = squeeze st ps ++ t.
Proof.
  intros t NT ST. unfold pcs_src. induction ps as [|x ps IH]; intros st b F S.
  - cbn [flat_map squeeze app]. destruct st as [p|p c n a l]; cbn [held flush].
    + apply rsub_none. intro I'. apply in_app_or in I' as [I'|I']; [|exact (NT I')]. cbn [sst_fine] in S. rewrite forallb_forall in S. specialize (S _ I'). discriminate S.
    + destruct S as (S1 & S2 & S3). destruct (rsub_tag b p c n a l t S3 S1 S2 ST) as (b' & E). rewrite <- !app_assoc.
      etransitivity; [exact E|]. rewrite rsub_none by exact NT. reflexivity.
  - inversion_clear F as [|? ? F1 F2]. cbn [flat_map squeeze]. destruct x as [c|cl n a].
    + cbn [pc_src app]. cbn [pc_fine] in F1. destruct (is_space c) eqn:Ec.
      * rewrite <- (IH (match st with Run p => Run (p ++ [c]) | Tagged p cl n a l => Tagged p cl n a (l ++ [c]) end) b F2).
        -- destruct st; cbn [held]; rewrite <- !app_assoc; reflexivity.
        -- assert (K : forall q : str, forallb is_space q = true -> forallb is_space (q ++ [c]) = true).
           { intros q Hq. rewrite forallb_app. apply andb_true_iff. split; [exact Hq|]. cbn [forallb]. rewrite Ec. reflexivity. }
           destruct st as [p|p cl n a l]; cbn [sst_fine] in *; [apply K; exact S|]. destruct S as (S1 & S2 & S3). auto.
      * destruct st as [p|p cl n a l]; cbn [held flush].
        -- destruct (rsub_spaces p b (c :: flat_map pc_src ps ++ t) S) as (b' & E); [exact Ec|cbn [stop]; apply N.eqb_neq; congruence|].
           rewrite E, rsub_char by assumption. rewrite <- app_assoc. cbn [app]. do 2 f_equal. exact (IH (Run []) (c :: b') F2 eq_refl).
        -- destruct S as (S1 & S2 & S3). rewrite <- !app_assoc. cbn [app]. destruct (rsub_tag b p cl n a l (c :: flat_map pc_src ps ++ t) S3 S1 S2 Ec) as (b' & E).
           etransitivity; [exact E|]. rewrite rsub_char by assumption. do 2 f_equal. exact (IH (Run []) (c :: b') F2 eq_refl).
    + cbn [pc_src pc_fine] in *. destruct st as [p|p cl' n' a' l]; cbn [held flush].
      * rewrite <- (IH (Tagged p cl n a []) b F2); [|cbn [sst_fine]; auto]. cbn [held]. rewrite app_nil_r, <- !app_assoc. reflexivity.
      * destruct S as (S1 & S2 & S3). rewrite <- !app_assoc.
        destruct (rsub_tag b p cl' n' a' l (tag_src cl n a ++ flat_map pc_src ps ++ t) S3 S1 S2) as (b' & E).
        { destruct (tag_first cl n a) as (u & ->). reflexivity. }
        etransitivity; [exact E|]. f_equal. rewrite <- (IH (Tagged [] cl n a []) b' F2); [|cbn [sst_fine]; auto]. cbn [held app]. rewrite app_nil_r. reflexivity.
Qed.

(** ** the lines are joined *)
Fixpoint squash_st (seen : bool) (p s : str) : bool * str :=
  match s with [] => (seen, p) | c :: r => if is_space c then squash_st seen (p ++ [c]) r else squash_st true [] r end.
Lemma squash_app : forall a b seen p, squash seen p (a ++ b) = squash seen p a ++ squash (fst (squash_st seen p a)) (snd (squash_st seen p a)) b.
Proof.
  induction a as [|c a IH]; intros b seen p; [reflexivity|]. cbn [app squash squash_st]. destruct (is_space c); [apply IH|]. rewrite IH, <- app_assoc. reflexivity.
Qed.
Lemma squash_shown : forall X b, X = [] \/ Spec40.visible_end X -> stop is_space b -> squash false [] (X ++ b) = squash false [] X ++ squash true [] b.
Proof.
  intros X b [->|(X' & c & -> & C)] S.
  - cbn [app]. destruct b as [|d b]; [reflexivity|]. cbn [stop] in S. cbn [squash app]. rewrite S. reflexivity.
  - rewrite squash_app. f_equal. assert (E : forall seen p, squash_st seen p (X' ++ [c]) = (true, [])).
    { induction X' as [|d X' IH]; intros seen p; cbn [app squash_st]; [rewrite C; reflexivity|]. destruct (is_space d); apply IH. }
    rewrite E. reflexivity.
Qed.
Lemma squash_in : forall s seen p c, In c (squash seen p s) -> In c s \/ In c p \/ c = 32.
Proof.
  assert (CV : forall p c, In c (conv p) -> In c p \/ c = 32).
  { intros p c H. unfold conv in H. destruct (existsb _ p); [|auto]. right. apply repeat_spec in H. exact H. }
  induction s as [|d s IH]; intros seen p c H; [destruct H|]. cbn [squash] in H. destruct (is_space d).
  - destruct (IH _ _ _ H) as [K|[K|K]]; [left; right; exact K| |auto]. apply in_app_or in K as [K|[K|[]]]; [auto|]. left. left. exact K.
  - apply in_app_or in H as [H|[H|H]].
    + destruct seen; [|destruct H]. destruct (CV _ _ H); auto.
    + left. left. exact H.
    + destruct (IH _ _ _ H) as [K|[[]|K]]; [left; right; exact K|auto].
Qed.
Lemma squash_not_in : forall s c, c <> 32 -> ~ In c s -> ~ In c (squash true [] s).
Proof. intros s c C N H. destruct (squash_in s true [] c H) as [K|[[]|K]]; [exact (N K)|exact (C K)]. Qed.
Lemma squash_ink : forall s, forallb (fun c => negb (is_space c)) s = true -> squash true [] s = s.
Proof.
  induction s as [|c s IH]; intro H; [reflexivity|]. cbn [forallb] in H. apply andb_true_iff in H as [H1 H2]. apply negb_true_iff in H1. cbn [squash]. rewrite H1, (IH H2). reflexivity.
Qed.
Lemma squash_one : forall c s, is_space c = false -> squash true [] (c :: s) = c :: squash true [] s.
Proof. intros c s H. cbn [squash]. rewrite H. reflexivity. Qed.
Lemma conv_some : forall c p, exists d q, conv (c :: p) = d :: q /\ (forallb is_space (c :: p) = true -> is_space d = true).
Proof.
  intros c p. unfold conv. destruct (existsb (N.eqb 10) (c :: p)) eqn:E.
  - destruct (has_newline (c :: p) E) as (k & K). rewrite K. cbn [repeat]. eexists _, _. split; reflexivity.
  - eexists _, _. split; [reflexivity|]. cbn [forallb]. intro H. apply andb_true_iff in H as [H _]. exact H.
Qed.
Lemma squash_head : forall c s y, squash true [] s = c :: y -> is_space c = false -> exists z, s = c :: z.
Proof.
  assert (K : forall s d p c y, forallb is_space (d :: p) = true -> squash true (d :: p) s = c :: y -> is_space c = true).
  { induction s as [|e s IH]; intros d p c y P H; [discriminate H|]. cbn [squash] in H. destruct (is_space e) eqn:E.
    - apply (IH d (p ++ [e]) c y); [|exact H]. cbn [forallb] in P |- *. apply andb_true_iff in P as [P1 P2]. rewrite P1, forallb_app, P2. cbn [forallb]. rewrite E. reflexivity.
    - destruct (conv_some d p) as (f & q & F1 & F2). match type of H with context [conv ?z] => replace (conv z) with (f :: q) in H by (symmetry; exact F1) end. cbn [app] in H. injection H as H _. subst c. apply F2. exact P. }
  intros c [|d s] y H C; [discriminate H|]. cbn [squash] in H. destruct (is_space d) eqn:D.
  - apply (K s d [] c y) in H; [congruence|]. cbn [forallb]. rewrite D. reflexivity.
  - cbn [app conv] in H. injection H as -> _. eauto.
Qed.

(** ** one step stops there *)
Lemma split1_none : forall c s, ~ In c s -> split1 c s = None.
Proof.
  induction s as [|d s IH]; intro H; [reflexivity|]. cbn [split1]. destruct (N.eqb_spec d c) as [->|N]; [exfalso; apply H; left; reflexivity|]. rewrite IH; [reflexivity|]. intro I'. apply H. right. exact I'.
Qed.
Lemma skipn_not_in : forall n (s : str) c, ~ In c s -> ~ In c (skipn n s).
Proof. intros n s c H I'. apply H. rewrite <- (firstn_skipn n s). apply in_or_app. right. exact I'. Qed.
Lemma comment_open : forall s, ~ In 62 s -> search commentclose_re s = None.
Proof.
  assert (K : forall s k, ~ In 62 s -> m commentclose_re (mk [] s []) k = None).
  { intros s k N. apply m_none. intros s' H. exfalso. unfold commentclose_re, seqs in H.
    inversion H as [| | ? ? ? s1 ? M1 M2| | | | | | | | | | |]; subst. inversion M2 as [| | ? ? ? s2 ? M3 M4| | | | | | | | | | |]; subst.
    apply Mt_ext in M1 as (w & cs & X & _). apply Mt_ext in M3 as (w2 & cs2 & X2 & _). inversion M4; subst. match goal with E : (62 =? _) = true |- _ => apply N.eqb_eq in E; subst end.
    cbn [rest] in X, X2. apply N. rewrite X, X2. apply in_or_app. right. apply in_or_app. right. left. reflexivity. }
  induction s as [|c s IH]; intro N; cbn [search]; rewrite try_at_miss by (apply K; exact N); [reflexivity|]. rewrite IH; [reflexivity|]. intro I'. apply N. right. exact I'.
Qed.
Lemma alpha_letter : forall c, Spec42.ascii_letter c = true -> is_alpha c = true.
Proof. intros c H. unfold Spec42.ascii_letter, Spec42.within in H. unfold is_alpha. rewrite orb_comm. exact H. Qed.
Ltac ranges H := unfold Spec42.hex_digit, Spec42.ascii_letter, Spec42.ascii_digit, Spec42.within in H; rewrite ?orb_true_iff, ?andb_true_iff, ?N.leb_le in H.
Lemma letter_ink : forall c, Spec42.ascii_letter c = true -> is_space c = false.
Proof. intros c H. ranges H. unfold is_space. cls. Qed.
Definition stops (t : str) : Prop := one None t = Stop [].
Lemma stop_opening : forall c x, is_alpha c = true -> ~ In 62 x -> ~ In 0 x -> stops (60 :: c :: x).
Proof. intros c x C N N0. unfold stops, one. change (60 =? 60) with true. cbv iota. cbn [lt_step]. rewrite C. unfold parse_starttag. rewrite unfinished by assumption. reflexivity. Qed.
Lemma stop_closing : forall x, ~ In 62 x -> stops (60 :: 47 :: x).
Proof.
  intros x N. unfold stops, one. change (60 =? 60) with true. cbv iota. cbn [lt_step]. change (is_alpha 47) with false. change (47 =? 47) with true. cbv iota. unfold parse_endtag, find. cbn [skipn].
  rewrite split1_none; [reflexivity|]. intros [I'|I']; [discriminate I'|exact (N I')].
Qed.
Lemma stop_declaration : forall x, ~ In 62 x -> (forall y, x <> 91 :: y) -> stops (60 :: 33 :: x).
Proof.
  intros x N B. unfold stops, one. change (60 =? 60) with true. cbv iota. cbn [lt_step]. change (is_alpha 33) with false. change (33 =? 47) with false. change (33 =? 63) with false. change (33 =? 33) with true. cbv iota.
  destruct (startswith _ (60 :: 33 :: x)) eqn:E.
  - rewrite comment_open; [reflexivity|]. cbn [skipn]. change (match x with [] => [] | _ :: l => match l with [] => [] | _ :: l0 => l0 end end) with (skipn 2 x). apply skipn_not_in. exact N.
  - unfold parse_html_declaration. replace (startswith ($ "<![") (60 :: 33 :: x)) with false.
    2:{ symmetry. destruct x as [|c x]; [reflexivity|]. cbn [L startswith]. destruct (N.eqb_spec 91 c) as [<-|Nc]; [exfalso; exact (B x eq_refl)|]. cbn. reflexivity. }
    destruct (str_eqb _ _).
    + unfold find. rewrite split1_none; [reflexivity|]. change (skipn 9 (60 :: 33 :: x)) with (skipn 7 x). apply skipn_not_in. exact N.
    + unfold parse_bogus_comment, find. cbn [skipn]. rewrite split1_none by exact N. reflexivity.
Qed.
Lemma stop_instruction : forall x, ~ In 62 x -> stops (60 :: 63 :: x).
Proof.
  intros x N. unfold stops, one. change (60 =? 60) with true. cbv iota. cbn [lt_step]. change (is_alpha 63) with false. change (63 =? 47) with false. change (63 =? 63) with true. cbv iota.
  replace (startswith ($ "<!--") (60 :: 63 :: x)) with false by reflexivity. unfold parse_bogus_comment, find. cbn [skipn]. rewrite split1_none by exact N. reflexivity.
Qed.
Lemma mt_seq : forall r1 r2 s1 s2, Mt (RSeq r1 r2) s1 s2 -> exists s3, Mt r1 s1 s3 /\ Mt r2 s3 s2.
Proof. intros r1 r2 s1 s2 X. inversion X; subst. eauto. Qed.
Lemma mt_alt : forall r1 r2 s1 s2, Mt (RAlt r1 r2) s1 s2 -> Mt r1 s1 s2 \/ Mt r2 s1 s2.
Proof. intros r1 r2 s1 s2 X. inversion X; subst; auto. Qed.
Lemma mt_grp : forall g r s1 s2, Mt (RGrp g r) s1 s2 -> exists s3, Mt r s1 s3 /\ rest s2 = rest s3.
Proof. intros g r s1 s2 X. inversion X; subst. eauto. Qed.
(** a reference needs a sign behind it that cannot belong to it *)
Lemma last_chr : forall p s1 s2, Mt (RChr p) s1 s2 -> exists c, In c (rest s1) /\ p c = true.
Proof. intros p s1 s2 X. inversion X; subst. exists c. split; [left; reflexivity|assumption]. Qed.
Lemma stop_name : forall c n, Spec42.ascii_letter c = true -> forallb (fun c => Spec42.ascii_letter c || Spec42.ascii_digit c) n = true -> stops (38 :: c :: n).
Proof.
  intros c n C H. unfold stops, one. change (38 =? 60) with false. cbv iota.
  assert (AN : forall d, In d (c :: n) -> is_alnum d = true).
  { intros d [<-|D]; [unfold is_alnum; rewrite (alpha_letter c C); reflexivity|]. rewrite forallb_forall in H. specialize (H d D). unfold is_alnum. apply orb_true_iff in H as [H|H]; [rewrite (alpha_letter d H); reflexivity|].
    unfold Spec42.ascii_digit, Spec42.within in H. unfold is_dec. rewrite H. apply orb_true_r. }
  assert (MM : match_at entityref_re (38 :: c :: n) 0 = None).
  { unfold match_at. apply try_at_miss, m_none. intros s' M. exfalso. unfold entityref_re, seqs in M. change (skipn 0 (38 :: c :: n)) with (38 :: c :: n) in M.
    apply mt_seq in M as (s1 & M1 & M). inversion M1; subst. apply mt_seq in M as (s2 & M2 & M3). apply Mt_ext in M2 as (w & cs & X & _). cbn [rest] in X. apply last_chr in M3 as (d & D1 & D2).
    rewrite AN in D2; [discriminate D2|]. rewrite X. apply in_or_app. right. exact D1. }
  unfold amp_step. rewrite MM. rewrite (alpha_letter c C).
  assert (E35 : c <> 35) by (intros ->; discriminate C). clear - E35. destruct c as [|p]; [reflexivity|]. do 6 (destruct p as [p|p|]; try reflexivity). exfalso. apply E35. reflexivity.
Qed.
Lemma stop_code : forall n, (exists k, n = k /\ forallb is_hex k = true) \/ (exists x k, n = x :: k /\ (x = 120 \/ x = 88) /\ forallb is_hex k = true) -> stops (38 :: 35 :: n).
Proof.
  intros n H. unfold stops, one. change (38 =? 60) with false. cbv iota.
  assert (HX : forall k d, forallb is_hex k = true -> In d k -> is_hex d = true) by (intros k d K D; rewrite forallb_forall in K; exact (K d D)).
  assert (MM : match_at charref_re (38 :: 35 :: n) 0 = None).
  { unfold match_at. apply try_at_miss, m_none. intros s' M. exfalso. unfold charref_re, seqs in M. change (skipn 0 (38 :: 35 :: n)) with (38 :: 35 :: n) in M.
    apply mt_seq in M as (s1 & M1 & M). cbn [lit L] in M1. apply mt_seq in M1 as (s0 & M0 & M1). inversion M0; subst. inversion M1; subst. clear M0 M1. apply mt_seq in M as (s2 & M2 & M3).
    apply mt_grp in M2 as (s3 & G & R3). apply last_chr in M3 as (d & D1 & D2). rewrite R3 in D1.
    destruct H as [(k & E & K)|(x & k & E & X & K)].
    - apply Mt_ext in G as (w & cs & G & _). cbn [rest] in G. rewrite (HX k d K) in D2; [discriminate D2|]. rewrite <- E. rewrite G. apply in_or_app. right. exact D1.
    - subst n. apply mt_alt in G as [G1|G1].
      + unfold RPlus in G1. apply mt_seq in G1 as (s4 & G1 & _). inversion G1; subst. destruct X as [-> | ->]; match goal with E : is_dec _ = true |- _ => discriminate E end.
      + apply mt_seq in G1 as (s4 & G1 & G2). inversion G1; subst. apply Mt_ext in G2 as (w & cs & G2 & _). cbn [rest] in G2. rewrite (HX k d K) in D2; [discriminate D2|]. rewrite G2. apply in_or_app. right. exact D1. }
  unfold amp_step. rewrite MM.
  assert (C59 : contains [59] (38 :: 35 :: n) = false).
  { assert (Q : forall s, ~ In 59 s -> contains [59] s = false).
    { induction s as [|c s IH]; intro N; [reflexivity|]. cbn [contains startswith]. destruct (N.eqb_spec 59 c) as [<-|Nc]; [exfalso; apply N; left; reflexivity|]. cbn [andb orb]. apply IH. intro I'. apply N. right. exact I'. }
    apply Q. assert (KH : forall k, forallb is_hex k = true -> ~ In 59 k) by (intros k K I'; specialize (HX k 59 K I'); discriminate HX).
    destruct H as [(k & -> & K)|(x & k & -> & X & K)]; intros [I'|[I'|I']]; try discriminate I'; [exact (KH k K I')|]. destruct I' as [I'|I']; [destruct X; subst; discriminate|exact (KH k K I')]. }
  rewrite C59. reflexivity.
Qed.
Lemma hex_is : forall c, Spec42.hex_digit c = true -> is_hex c = true /\ is_space c = false.
Proof. intros c H. ranges H. unfold is_hex, is_dec, is_space. split; cls. Qed.
Lemma forallb_two : forall (p q r : N -> bool) l, (forall c, p c = true -> q c = true /\ r c = false) -> forallb p l = true -> forallb q l = true /\ forallb (fun c => negb (r c)) l = true.
Proof. intros p q r l H F. split; eapply forallb_impl; [|exact F| |exact F]; intros c Hc; destruct (H c Hc) as [H1 H2]; [exact H1|rewrite H2; reflexivity]. Qed.

Theorem cut_stops : forall t, Spec42.cut_off t -> stop is_space t /\ ~ In 62 t /\ stops (squash true [] t) /\ markup (squash true [] t) /\ squash true [] t <> [] /\ ~ In 62 (squash true [] t) /\ stop is_space (squash true [] t).
Proof.
  intros t H. assert (A : stop is_space t /\ ~ In 62 t /\ stops (squash true [] t) /\ exists c u, t = c :: u /\ (c = 60 \/ c = 38)).
  { destruct H as [|c x C N N0|x N|x N B|x N| |c n C F|n F|x n X F]; cbn [app L].
    - split; [reflexivity|]. split; [intros [E|[]]; discriminate E|]. split; [reflexivity|eauto].
    - pose proof (letter_ink c C) as SC. split; [reflexivity|]. split; [intros [E|[E|E]]; [discriminate E|subst c; discriminate C|exact (N E)]|]. split; [|eauto].
      rewrite !squash_one by (try exact SC; reflexivity). apply stop_opening; [apply alpha_letter; exact C|apply squash_not_in; [discriminate|exact N]|apply squash_not_in; [discriminate|exact N0]].
    - split; [reflexivity|]. split; [intros [E|[E|E]]; [discriminate E|discriminate E|exact (N E)]|]. split; [|eauto]. rewrite !squash_one by reflexivity. apply stop_closing. apply squash_not_in; [discriminate|exact N].
    - split; [reflexivity|]. split; [intros [E|[E|E]]; [discriminate E|discriminate E|exact (N E)]|]. split; [|eauto]. rewrite !squash_one by reflexivity. apply stop_declaration; [apply squash_not_in; [discriminate|exact N]|].
      intros y E. apply squash_head in E as (z & E); [exact (B z E)|reflexivity].
    - split; [reflexivity|]. split; [intros [E|[E|E]]; [discriminate E|discriminate E|exact (N E)]|]. split; [|eauto]. rewrite !squash_one by reflexivity. apply stop_instruction. apply squash_not_in; [discriminate|exact N].
    - split; [reflexivity|]. split; [intros [E|[]]; discriminate E|]. split; [reflexivity|eauto].
    - pose proof (letter_ink c C) as SC.
      assert (AN : forall d, Spec42.ascii_letter d || Spec42.ascii_digit d = true -> d <> 62 /\ is_space d = false).
      { intros d D. ranges D. split; [lia|]. unfold is_space. cls. }
      split; [reflexivity|]. split.
      { intros [E|[E|E]]; [discriminate E|subst c; discriminate C|]. rewrite forallb_forall in F. exact (proj1 (AN 62 (F 62 E)) eq_refl). }
      split; [|eauto]. rewrite !squash_one by (try exact SC; reflexivity). rewrite squash_ink; [apply stop_name; assumption|]. eapply forallb_impl; [|exact F]. intros d D. rewrite (proj2 (AN d D)). reflexivity.
    - assert (F' : forallb Spec42.hex_digit n = true) by (eapply forallb_impl; [|exact F]; intros c Hc; unfold Spec42.hex_digit; rewrite Hc; reflexivity).
      destruct (forallb_two _ _ _ n hex_is F') as [F1 F2]. split; [reflexivity|]. split.
      { intros [E|[E|E]]; try discriminate E. rewrite forallb_forall in F1. specialize (F1 62 E). discriminate F1. }
      split; [|eauto]. rewrite !squash_one by reflexivity. rewrite squash_ink by exact F2. apply stop_code. left. eauto.
    - destruct (forallb_two _ _ _ n hex_is F) as [F1 F2]. split; [reflexivity|]. split.
      { intros [E|[E|[E|E]]]; try discriminate E; [subst x; destruct X; discriminate|]. rewrite forallb_forall in F1. specialize (F1 62 E). discriminate F1. }
      split; [|eauto]. rewrite !squash_one by (try reflexivity; destruct X as [-> | ->]; reflexivity). rewrite squash_ink by exact F2. apply stop_code. right. exists x, n. auto. }
  destruct A as (A1 & A2 & A3 & c & u & -> & C). assert (SC : is_space c = false) by exact A1. repeat split; try assumption.
  - rewrite squash_one by exact SC. exact C.
  - rewrite squash_one by exact SC. discriminate.
  - apply squash_not_in; [discriminate|exact A2].
  - rewrite squash_one by exact SC. exact SC.
Qed.

(** ** the tokens *)
Lemma toks_stop : forall t, stops t -> markup t -> t <> [] -> toks None t = ([], false).
Proof. intros t S M N. rewrite toks_eq. destruct t as [|c t]; [congruence|]. cbn [interesting]. rewrite until_here by exact M. rewrite S. reflexivity. Qed.
Lemma toks_tail : forall t, stops t -> markup t -> t <> [] -> forall n l l', (List.length l < n)%nat -> near (tkr (fun _ => None)) l l' -> toks None (pcs_src l ++ t) = toks None (pcs_src l).
Proof.
  intros t S M NT. pose proof (toks_stop t S M NT) as TS. induction n as [|n IH]; intros l l' Hn H; [lia|].
  destruct (near_run _ l l' H) as (w & r & r' & -> & -> & W & N & O & O'). rewrite app_length, map_length in Hn.
  assert (R : toks None (pcs_src r ++ t) = toks None (pcs_src r)).
  { inversion N as [|c l l' C1 C2 H'|x l l' R H'|c k a k' a' l l' T H']; subst.
    - exact TS.
    - exfalso. destruct O; congruence.
    - destruct (ref_toks (tkr (fun _ => None)) (fun s => tkr_same _ _) (fun s => tkr_same _ _) x R) as (k & T1 & T2). pose proof (ref_chars x R) as [_ (z & Ez)].
      rewrite !pcs_app, !chars_src, <- app_assoc, !T2. rewrite (IH l l'); [reflexivity| |exact H']. rewrite app_length, map_length, Ez in Hn. cbn [List.length] in Hn. lia.
    - destruct (tn_tok _ _ _ _ _ _ T) as (k1 & k2 & T1 & T2 & T3). change (pcs_src (Tg c k a :: l)) with (tag_src c k a ++ pcs_src l). rewrite <- app_assoc.
      rewrite (toks_next (tag_src c k a ++ pcs_src l ++ t) [k1] (pcs_src l ++ t)) by (solve [apply T2|discriminate|left; reflexivity]).
      rewrite (toks_next (tag_src c k a ++ pcs_src l) [k1] (pcs_src l)) by (solve [apply T2|discriminate|left; reflexivity]). rewrite (IH l l'); [reflexivity| |exact H']. cbn [List.length] in Hn. lia. }
  assert (MT : markup (pcs_src r ++ t)) by (destruct r as [|x r]; [exact M|]; unfold opens in O; destruct (pcs_src (x :: r)) as [|d u] eqn:E; [exfalso; destruct x; discriminate E|exact O]).
  destruct w as [|c w]; [exact R|]. rewrite !pcs_app, !chars_src, <- app_assoc.
  etransitivity; [exact (toks_text (c :: w) (pcs_src r ++ t) ltac:(discriminate) W MT)|]. etransitivity; [|symmetry; exact (toks_text (c :: w) (pcs_src r) ltac:(discriminate) W O)]. f_equal. exact R.
Qed.
Lemma before_gt : forall (X t u b : str), X ++ t = u ++ 62 :: b -> ~ In 62 t -> exists b', X = u ++ 62 :: b'.
Proof.
  intros X t u b E N. destruct (app_eq_app _ _ _ _ E) as (d & [[E1 E2]|[E1 E2]]).
  - destruct d as [|c d]; [cbn [app] in E2; exfalso; apply N; rewrite <- E2; left; reflexivity|]. cbn [app] in E2. injection E2 as <- _. exists d. exact E1.
  - exfalso. apply N. rewrite E2. apply in_or_app. right. left. reflexivity.
Qed.
Theorem cut_parse : forall X t, Spec40.page X -> X = [] \/ Spec40.visible_end X -> Spec42.cut_off t -> parse_html (X ++ t) = parse_html X.
Proof.
  intros X t PX EX C. destruct (cut_stops t C) as (T1 & T2 & T3 & T4 & T5 & T6 & T7). destruct (page_pcs X PX) as (l & P & <-).
  pose proof (near_never_pre _ l l P) as [NP _]. pose proof (sqp_near _ l l false [] P eq_refl) as Q. pose proof (near_fine _ _ _ Q) as [[F _] _]. pose proof (near_fine _ _ _ P) as [_ [TN _]].
  unfold parse_html, feed. rewrite !preprocess_plain.
  - cbn [bind]. rewrite !strip_html_eq, squash_shown, squash_pcs by assumption.
    set (t' := squash true [] t) in *. set (q := sqp false [] l) in *.
    assert (E1 : rsub [] (pcs_src q ++ t') = squeeze (Run []) q ++ t').
    { change (pcs_src q ++ t') with (held (Run []) ++ pcs_src q ++ t'). apply rsub_tail; [exact T6|exact T7|exact F|reflexivity]. }
    assert (E2 : rsub [] (pcs_src q) = squeeze (Run []) q).
    { change (pcs_src q) with (held (Run []) ++ pcs_src q). apply rsub_squeeze; [exact F|reflexivity]. }
    rewrite E1, E2. rewrite squeeze_pcs. unfold feed_tokens.
    assert (N : near (tkr (fun _ => None)) (szp (Run []) q) (szp (Run []) q)) by (apply szp_near; [exact Q|constructor; reflexivity]).
    change (tokens (pcs_src (szp (Run []) q) ++ t')) with (toks None (pcs_src (szp (Run []) q) ++ t')). change (tokens (pcs_src (szp (Run []) q))) with (toks None (pcs_src (szp (Run []) q))).
    rewrite (toks_tail t' T3 T4 T5 _ _ _ (Nat.lt_succ_diag_r _) N). reflexivity.
  - exact NP.
  - intros a b E. change (a ++ $ "<pre>" ++ b) with (a ++ $ "<pre" ++ 62 :: b) in E. rewrite app_assoc in E. apply before_gt in E as (b' & E); [|exact T2]. apply (NP a b'). rewrite E, <- app_assoc. reflexivity.
Qed.
Theorem cut_results : forall X t (u : unknown) (strict : bool), Spec40.page X -> X = [] \/ Spec40.visible_end X -> Spec42.cut_off t ->
  html2creole u strict (X ++ t) = html2creole u strict X /\ html2textile u (X ++ t) = html2textile u X /\ html2markdown u (X ++ t) = html2markdown u X /\ html2rest u (X ++ t) = html2rest u X.
Proof.
  intros X t u strict H1 H2 H3. pose proof (cut_parse X t H1 H2 H3) as E. unfold html2creole, html2textile, html2markdown, html2rest. rewrite E. repeat split.
Qed.
