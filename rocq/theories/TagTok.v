(** * html.parser on tags in any spelling *)
From Coq Require Import String List Arith NArith ZArith Bool Lia.
From Verif Require Import PyStr PyStrFacts GNames Regex RegexFacts RegexRun Rules Utils Res Entities HtmlTools HtmlToolsFacts HtmlTok HtmlTokFacts Spec2 TreeFacts Spec10 TokRun.
Import ListNotations.
Open Scope N_scope.

(** names in any case *)
Definition cchar (c : N) : bool := letter c || dec c || (c =? 45).
Definition cname (n : str) : bool := match n with c :: t => letter c && forallb cchar t | [] => false end.
Lemma letter_range : forall c, letter c = true -> 97 <= c <= 122 \/ 65 <= c <= 90.
Proof.
  intros c H. unfold letter in H. apply orb_true_iff in H as [H|H]; [apply lower_letter_range in H; lia|].
  apply andb_true_iff in H as [H1 H2]; apply N.leb_le in H1, H2. lia.
Qed.
Lemma cchar_range : forall c, cchar c = true -> 97 <= c <= 122 \/ 65 <= c <= 90 \/ 48 <= c <= 57 \/ c = 45.
Proof.
  intros c H. unfold cchar in H. rewrite !orb_true_iff in H. destruct H as [[H|H]|H].
  - apply letter_range in H. lia.
  - unfold dec in H. apply andb_true_iff in H as [H1 H2]; apply N.leb_le in H1, H2. lia.
  - apply N.eqb_eq in H. lia.
Qed.
Lemma cchar_attr : forall c, cchar c = true -> is_attr0 c = true /\ is_attr1 c = true /\ is_tagchar c = true /\ is_space c = false /\ c <> 47 /\ c <> 61 /\ c <> 62.
Proof.
  intros c H. apply cchar_range in H. unfold is_attr0, is_attr1, is_tagchar, is_space. repeat split; try lia; cls.
Qed.
Lemma letter_alpha : forall c, letter c = true -> is_alpha c = true.
Proof. intros c H. apply letter_range in H. unfold is_alpha. cls. Qed.
Lemma cname_chars : forall n, cname n = true -> forallb cchar n = true /\ n <> [].
Proof.
  intros [|c n] H; [discriminate|]. cbn [cname] in H. apply andb_true_iff in H as [H1 H2]. split; [|discriminate]. cbn [forallb]. rewrite H2, andb_true_r.
  unfold cchar. rewrite H1. reflexivity.
Qed.

(** white space *)
Local Notation gap n := (repeat 32 n).
Lemma gap_space : forall n, forallb is_space (gap n) = true.
Proof. induction n as [|n IH]; [reflexivity|]. cbn [repeat forallb]. rewrite IH. reflexivity. Qed.
Lemma rev_gap : forall n, rev (gap n) = gap n.
Proof.
  induction n as [|n IH]; [reflexivity|]. cbn [repeat rev]. rewrite IH. clear IH. induction n as [|n IH]; [reflexivity|]. cbn [repeat app]. rewrite IH. reflexivity.
Qed.
Lemma gap_app : forall n (b : str), gap n ++ 32 :: b = 32 :: gap n ++ b.
Proof. induction n as [|n IH]; intro b; [reflexivity|]. cbn [repeat app]. rewrite IH. reflexivity. Qed.
Lemma sps_gap : forall n y b cs k r, stop is_space y -> k (mk (gap n ++ b) y cs) = Some r -> m sps (mk b (gap n ++ y) cs) k = Some r.
Proof. intros. apply (star_take is_space (gap n) y); auto; [apply gap_space|]. rewrite rev_gap. assumption. Qed.
Lemma skip_gap : forall n y b cs k r, tag_stop y -> k (mk (gap n ++ b) y cs) = Some r -> m skip_slash (mk b (gap n ++ y) cs) k = Some r.
Proof.
  induction n as [|n IH]; intros y b cs k r Hy Hk; [apply skip_none; assumption|].
  unfold skip_slash. rewrite m_star by (apply nonnull_consuming; reflexivity). rewrite m_alt. unfold sp. cbn [repeat app]. rewrite m_chr. change (is_space 32) with true. cbv iota.
  match goal with |- context [m (RStar true ?z) (mk ?bb ?yy ?cc) k] => change (m (RStar true z) (mk bb yy cc) k) with (m skip_slash (mk bb yy cc) k) end.
  rewrite (IH y (32 :: b) cs k r Hy); [reflexivity|]. cbn [repeat app] in Hk. rewrite gap_app. exact Hk.
Qed.

(** ** one attribute *)
Definition sp_before (b : str) : Prop := exists b', b = 32 :: b'.
Lemma cattr_name_take : forall n y b cs k r, cname n = true -> stop is_attr1 y -> sp_before b ->
  k (mk (rev n ++ b) y cs) = Some r -> m attr_name_re (mk b (n ++ y) cs) k = Some r.
Proof.
  intros n y b cs k r Hn Hy (b' & ->) Hk. apply cname_chars in Hn as [Hn Hne]. destruct n as [|c n]; [congruence|].
  cbn [forallb] in Hn. apply andb_true_iff in Hn as [H1 H2].
  unfold attr_name_re, seqs. rewrite m_seq. cbn [m bef]. change (xorb false (is_quote 32 || is_space 32 || (32 =? 47))) with true. cbv iota.
  cbn [rest app]. change (negb (is_space c || (c =? 47) || (c =? 62))) with (is_attr0 c). rewrite (proj1 (cchar_attr c H1)). cbn [bef caps].
  apply (star_take is_attr1 n y (c :: 32 :: b')); [|exact Hy|].
  - eapply forallb_impl; [|exact H2]. intros x Hx. apply cchar_attr in Hx. tauto.
  - cbn [rev] in Hk. rewrite <- app_assoc in Hk. exact Hk.
Qed.
Lemma cattr_eq_take : forall i j y b cs k r, stop (N.eqb 61) y -> stop is_space y -> (j <> 0%nat \/ True) ->
  k (mk (gap j ++ 61 :: gap i ++ b) y cs) = Some r -> m attr_eq_re (mk b (gap i ++ 61 :: gap j ++ y) cs) k = Some r.
Proof.
  intros i j y b cs k r H1 H2 _ Hk. unfold attr_eq_re, seqs. rewrite m_seq. apply sps_gap; [reflexivity|]. rewrite m_seq.
  apply (plus_take (N.eqb 61) [61] (gap j ++ y)); [discriminate|reflexivity|destruct j; [exact H1|reflexivity]|]. apply sps_gap; [exact H2|exact Hk].
Qed.
(** how a value is written; [y] is what follows *)
Definition bare_c (c : N) : bool := negb ((c =? 62) || is_space c).
Inductive val_ok (y : str) : str -> Prop :=
| val_double v : ~ In 34 v -> val_ok y (34 :: v ++ [34])
| val_single v : ~ In 39 v -> val_ok y (39 :: v ++ [39])
| val_bare c v : is_quote c = false -> c <> 61 -> forallb bare_c (c :: v) = true -> stop bare_c y -> val_ok y (c :: v).
Definition val_read (w : str) : str :=
  match w with c :: r => if is_quote c then removelast r else w | [] => [] end.
Lemma val_stop : forall y w z, val_ok y w -> stop (N.eqb 61) (w ++ z) /\ stop is_space (w ++ z) /\ w <> [].
Proof.
  intros y w z [v H|v H|c v H1 H2 H3 H4].
  - split; [reflexivity|]. split; [reflexivity|discriminate].
  - split; [reflexivity|]. split; [reflexivity|discriminate].
  - cbn [app stop]. split; [apply N.eqb_neq; congruence|]. split; [|discriminate]. cbn [forallb] in H3. apply andb_true_iff in H3 as [H3 _].
    unfold bare_c in H3. apply negb_true_iff, orb_false_iff in H3. tauto.
Qed.
Lemma cattr_value_take : forall w y b cs k r, val_ok y w ->
  k (mk (rev w ++ b) y cs) = Some r -> m attr_value_re (mk b (w ++ y) cs) k = Some r.
Proof.
  intros w y b cs k r [v Hv|v Hv|c v H1 H2 H3 H4] Hk.
  - cbn [rev] in Hk. rewrite rev_app_distr in Hk. cbn [rev app] in *. rewrite <- !app_assoc in *. cbn [app] in *. apply attr_value_take; [exact Hv|].
    cbn [app] in *. exact Hk.
  - cbn [rev] in Hk. rewrite rev_app_distr in Hk. cbn [rev app] in *. rewrite <- !app_assoc in *. cbn [app] in *.
    unfold attr_value_re, alts, seqs. rewrite m_alt, m_seq, m_c1, m_seq.
    rewrite (star_take (fun c => negb (c =? 39)) v (39 :: y) _ _ _ r); [reflexivity| |reflexivity|].
    + apply forallb_forall. intros c Hc. apply negb_true_iff, N.eqb_neq. intros ->. contradiction.
    + rewrite m_c1. exact Hk.
  - assert (Q : c <> 39 /\ c <> 34) by (split; intro; subst c; discriminate).
    unfold attr_value_re, alts, seqs. cbn [app]. rewrite m_alt, m_seq, m_c1_no by (cbn [stop]; apply N.eqb_neq; destruct Q; congruence). cbn [orelse].
    rewrite m_alt, m_seq, m_c1_no by (cbn [stop]; apply N.eqb_neq; destruct Q; congruence). cbn [orelse]. rewrite m_seq.
    cbn [m rest]. rewrite H1. cbv iota.
    apply (star_take bare_c (c :: v) y b); assumption.
Qed.

(** an attribute and the space after it *)
Record item := mki { i_name : str; i_before : nat; i_after : nat; i_val : str; i_gap : nat }.
Definition i_core (x : item) : str := i_name x ++ gap (i_before x) ++ 61 :: gap (i_after x) ++ i_val x.
Definition i_src (x : item) : str := i_core x ++ gap (i_gap x).
Definition item_ok (x : item) (y : str) : Prop := cname (i_name x) = true /\ val_ok (gap (i_gap x) ++ y) (i_val x).
Lemma attr1_gap : forall i y, stop is_attr1 (gap i ++ 61 :: y).
Proof. intros [|i] y; reflexivity. Qed.
Lemma rev_core : forall x b, rev (i_core x) ++ b = rev (i_val x) ++ gap (i_after x) ++ 61 :: gap (i_before x) ++ rev (i_name x) ++ b.
Proof.
  intros x b. unfold i_core. rewrite rev_app_distr, rev_app_distr. cbn [rev]. rewrite rev_app_distr, !rev_gap, <- !app_assoc. reflexivity.
Qed.
Lemma cloc_attr_take : forall x y b cs k r, item_ok x y -> tag_stop y -> sp_before b ->
  k (mk (gap (i_gap x) ++ rev (i_core x) ++ b) y cs) = Some r -> m loc_attr (mk b (i_src x ++ y) cs) k = Some r.
Proof.
  intros x y b cs k r [Hn Hv] Hy Hb Hk. rewrite rev_core in Hk. unfold loc_attr, i_src, i_core, seqs. rewrite m_seq. rewrite <- !app_assoc.
  apply cattr_name_take; [exact Hn|apply attr1_gap|exact Hb|]. rewrite m_seq. unfold ROpt. rewrite m_alt. rewrite m_seq.
  cbn [app]. rewrite <- !app_assoc.
  match goal with |- orelse ?a _ = Some ?r => assert (E : a = Some r); [|rewrite E; reflexivity] end.
  destruct (val_stop _ _ (gap (i_gap x) ++ y) Hv) as (V1 & V2 & _).
  apply cattr_eq_take; [exact V1|exact V2|auto|]. rewrite m_seq. apply cattr_value_take; [exact Hv|].
  apply sps_gap; [apply tag_stop_space; exact Hy|]. apply skip_none; assumption.
Qed.

(** ** attributes and the end of the tag *)
Definition isrcs (l : list item) : str := flat_map i_src l.
Fixpoint items_ok (l : list item) (s : bool) : Prop :=
  match l with
  | [] => True
  | x :: r => cname (i_name x) = true /\ (r <> [] -> i_gap x <> 0%nat) /\
              (forall y, val_ok (gap (i_gap x) ++ isrcs r ++ fin_end s ++ y) (i_val x)) /\ items_ok r s
  end.
Lemma srcs_stop : forall l s y, items_ok l s -> tag_stop (isrcs l ++ fin_end s ++ y).
Proof.
  intros [|x l] s y H; [apply fin_stop|]. destruct H as [H _]. apply cname_chars in H as [H Hne]. unfold isrcs, i_src, i_core. cbn [flat_map]. destruct (i_name x) as [|c n]; [congruence|].
  cbn [forallb] in H. apply andb_true_iff in H as [H _]. apply cchar_attr in H. cbn. split; [tauto|left; tauto].
Qed.
Lemma srcs_stop2 : forall x l y, cname (i_name x) = true -> stop (fun c => is_space c || (c =? 47)) (isrcs (x :: l) ++ y).
Proof.
  intros x l y H. apply cname_chars in H as [H Hne]. unfold isrcs, i_src, i_core. cbn [flat_map]. destruct (i_name x) as [|c n]; [congruence|].
  cbn [forallb] in H. apply andb_true_iff in H as [H _]. apply cchar_attr in H as (_ & _ & _ & H1 & H2 & _). cbn [app stop]. rewrite H1. apply N.eqb_neq. assumption.
Qed.
Lemma sp_gap : forall n b, n <> 0%nat -> sp_before (gap n ++ b).
Proof. intros [|n] b H; [congruence|]. exists (gap n ++ b). reflexivity. Qed.
Lemma rev_src : forall x b, rev (i_src x) ++ b = gap (i_gap x) ++ rev (i_core x) ++ b.
Proof. intros. unfold i_src. rewrite rev_app_distr, rev_gap, <- app_assoc. reflexivity. Qed.
Lemma cloc_star : forall l s y b cs k r, items_ok l s -> sp_before b ->
  k (mk (rev (isrcs l) ++ b) (fin_end s ++ y) cs) = Some r ->
  m (RStar true loc_attr) (mk b (isrcs l ++ fin_end s ++ y) cs) k = Some r.
Proof.
  induction l as [|x l IH]; intros s y b cs k r Hl Hb Hk; rewrite m_star by (apply nonnull_consuming; reflexivity).
  - cbn [isrcs flat_map app rev] in *. rewrite loc_attr_no. exact Hk.
  - pose proof Hl as HL. destruct Hl as (H1 & H2 & H3 & H4). cbn [isrcs flat_map] in *. fold (isrcs l) in *. rewrite <- app_assoc.
    rewrite (cloc_attr_take x (isrcs l ++ fin_end s ++ y) b cs _ r); [reflexivity| |apply srcs_stop; exact H4|exact Hb|].
    + split; [exact H1|apply H3].
    + rewrite rev_app_distr, <- app_assoc, rev_src in Hk. destruct l as [|x' l].
      * cbn [isrcs flat_map app rev] in *. rewrite m_star by (apply nonnull_consuming; reflexivity). rewrite loc_attr_no. exact Hk.
      * apply IH; [exact H4|apply sp_gap, H2; discriminate|]. exact Hk.
Qed.

Definition start (t : str) (g : nat) (l : list item) (s : bool) : str := 60 :: t ++ gap g ++ isrcs l ++ fin_end s.
(** [g]: the space after the name *)
Definition start_ok (t : str) (g : nat) (l : list item) (s : bool) : Prop :=
  cname t = true /\ items_ok l s /\ (l <> [] \/ s = true -> g <> 0%nat).
Lemma tagchar_stop_gap : forall t g l s y, start_ok t g l s -> stop is_tagchar (gap g ++ isrcs l ++ fin_end s ++ y).
Proof.
  intros t [|g] l s y (_ & _ & H); [|reflexivity]. destruct l as [|x l]; [|exfalso; apply H; [left; discriminate|reflexivity]].
  destruct s; [exfalso; apply H; [right; reflexivity|reflexivity]|]. reflexivity.
Qed.
Lemma clocate_take : forall t g l s y, start_ok t g l s ->
  exists u v cs, start t g l s = u ++ v /\ m locatestarttagend_re (mk [] (u ++ v ++ y) []) (fun s => Some s) = Some (mk (rev u) (v ++ y) cs) /\
    (v = [62] \/ v = [47; 62]).
Proof.
  intros t g l s y H. pose proof (tagchar_stop_gap t g l s y H) as TS. destruct H as (Ht & Hl & Hg).
  pose proof (cname_chars t Ht) as [Hc Hne].
  destruct t as [|a t]; [congruence|]. cbn [cname] in Ht. apply andb_true_iff in Ht as [Ha Ht].
  assert (K : forall u v cs, gap g ++ isrcs l ++ fin_end s = u ++ v ->
    m (RSeq (ROpt (RSeq (RStar true (RChr (fun c => is_space c || (c =? 47)))) (RStar true loc_attr))) sps)
      (mk (rev t ++ [a; 60]) (gap g ++ isrcs l ++ fin_end s ++ y) []) (fun s => Some s) = Some (mk (rev u ++ rev t ++ [a; 60]) (v ++ y) cs) ->
    start (a :: t) g l s = (60 :: a :: t ++ u) ++ v /\
    m locatestarttagend_re (mk [] ((60 :: a :: t ++ u) ++ v ++ y) []) (fun s => Some s) = Some (mk (rev (60 :: a :: t ++ u)) (v ++ y) cs)).
  { intros u v cs E M. split; [unfold start; cbn [app]; rewrite E, <- !app_assoc; reflexivity|].
    cbn [app]. rewrite <- app_assoc. rewrite (app_assoc u v y), <- E, <- !app_assoc.
    unfold locatestarttagend_re, seqs. rewrite m_seq, m_c1, m_seq, m_chr, (letter_alpha a Ha), m_seq.
    apply star_take; [eapply forallb_impl; [|exact Ht]; intros x Hx; apply cchar_attr in Hx; tauto|exact TS|].
    etransitivity; [exact M|]. cbn [rev]. rewrite rev_app_distr, <- !app_assoc. reflexivity. }
  destruct l as [|x l].
  - destruct (K (gap g ++ (if s then [47] else [])) [62] []) as [K1 K2].
    { cbn [isrcs flat_map app]. rewrite <- app_assoc. destruct s; reflexivity. }
    { rewrite m_seq. unfold ROpt. rewrite m_alt, m_seq. cbn [isrcs flat_map app].
      replace (gap g ++ fin_end s ++ y) with ((gap g ++ (if s then [47] else [])) ++ 62 :: y) by (rewrite <- app_assoc; destruct s; reflexivity).
      match goal with |- orelse ?a _ = Some ?r => assert (E : a = Some r); [|rewrite E; reflexivity] end.
      apply star_take; [| reflexivity|].
      - rewrite forallb_app. apply andb_true_iff. split; [|destruct s; reflexivity]. eapply forallb_impl; [|apply (gap_space g)]. intros z Hz. rewrite Hz. reflexivity.
      - rewrite m_star by (apply nonnull_consuming; reflexivity). rewrite (loc_attr_no false y). cbn [orelse]. apply sps_none; [reflexivity|]. reflexivity. }
    eexists _, _, _. split; [exact K1|]. split; [exact K2|left; reflexivity].
  - destruct (K (gap g ++ isrcs (x :: l)) (fin_end s) []) as [K1 K2].
    { rewrite <- app_assoc. reflexivity. }
    { rewrite m_seq. unfold ROpt. rewrite m_alt, m_seq.
      match goal with |- orelse ?a _ = Some ?r => assert (E : a = Some r); [|rewrite E; reflexivity] end.
      apply star_take; [eapply forallb_impl; [|apply (gap_space g)]; intros z Hz; rewrite Hz; reflexivity|apply srcs_stop2; apply Hl|].
      apply cloc_star; [exact Hl| |].
      - rewrite rev_gap. apply sp_gap, Hg. left. discriminate.
      - apply sps_none; [apply tag_stop_space, fin_stop|]. rewrite rev_app_distr, <- app_assoc. reflexivity. }
    eexists _, _, _. split; [exact K1|]. split; [exact K2|destruct s; auto].
Qed.
Lemma cwhole_tag : forall t g l s y, start_ok t g l s ->
  check_for_whole_start_tag (start t g l s ++ y) = Some (List.length (start t g l s)).
Proof.
  intros t g l s y H. destruct (clocate_take t g l s y H) as (u & v & cs & E & H1 & H2). rewrite E, <- app_assoc.
  unfold check_for_whole_start_tag, match_at. cbn [firstn skipn rev].
  rewrite (try_at_hit _ [] u (v ++ y) cs) by (rewrite app_nil_r; exact H1). cbn [mtxt]. rewrite skipn_app_exact.
  rewrite app_length. destruct H2 as [-> | ->]; cbn [app List.length N.eqb Pos.eqb]; f_equal; lia.
Qed.
Lemma ctagfind_take : forall t g l s y b, start_ok t g l s ->
  try_at tagfind_re false b ((t ++ gap g) ++ isrcs l ++ fin_end s ++ y) = Some (mkm (t ++ gap g) [(G_hp_tag, t)]).
Proof.
  intros t g l s y b H. pose proof (tagchar_stop_gap t g l s y H) as TS. destruct H as (Ht & Hl & Hg).
  apply try_at_hit. rewrite <- app_assoc. destruct t as [|a t]; [discriminate|]. cbn [cname] in Ht. apply andb_true_iff in Ht as [Ha Ht].
  unfold tagfind_re. rewrite m_seq, m_grp, m_seq. cbn [app]. rewrite m_chr, (letter_alpha a Ha).
  apply star_take; [eapply forallb_impl; [|exact Ht]; intros x Hx; apply cchar_attr in Hx; tauto|exact TS|].
  cbn [rest bef caps].
  match goal with |- context [firstn ?n (a :: t ++ ?z)] => replace (firstn n (a :: t ++ z)) with (a :: t) by (symmetry; apply (firstn_app_exact (a :: t))) end.
  apply skip_gap; [apply srcs_stop; exact Hl|]. cbn [rev]. rewrite rev_app_distr, rev_gap, <- !app_assoc. reflexivity.
Qed.
Lemma cattrfind_take : forall x y b, item_ok x y -> tag_stop y -> sp_before b ->
  exists cs, try_at attrfind_re false b (i_src x ++ y) = Some (mkm (i_src x) cs) /\
    cap G_hp_attr cs = Some (i_name x) /\ cap G_hp_rest cs = Some (gap (i_before x) ++ 61 :: gap (i_after x) ++ i_val x) /\
    cap G_hp_value cs = Some (i_val x).
Proof.
  intros x y b [Hn Hv] Hy Hb.
  exists [(G_hp_rest, gap (i_before x) ++ 61 :: gap (i_after x) ++ i_val x); (G_hp_value, i_val x); (G_hp_attr, i_name x)].
  split; [|split; [reflexivity|split; reflexivity]].
  apply try_at_hit. rewrite rev_src, rev_core. unfold i_src, i_core. rewrite <- !app_assoc. cbn [app]. rewrite <- !app_assoc.
  unfold attrfind_re, seqs. rewrite m_seq, m_grp. apply cattr_name_take; [exact Hn|apply attr1_gap|exact Hb|]. cbn [rest bef caps].
  rewrite firstn_app_exact. rewrite m_seq. unfold ROpt. rewrite m_alt, m_grp, m_seq.
  match goal with |- orelse ?a _ = Some ?r => assert (E : a = Some r); [|rewrite E; reflexivity] end.
  destruct (val_stop _ _ (gap (i_gap x) ++ y) Hv) as (V1 & V2 & _).
  apply cattr_eq_take; [exact V1|exact V2|auto|]. rewrite m_grp. apply cattr_value_take; [exact Hv|]. cbn [rest bef caps]. rewrite firstn_app_exact.
  match goal with |- context [firstn ?n (gap (i_before x) ++ 61 :: gap (i_after x) ++ i_val x ++ ?z)] =>
    replace (firstn n (gap (i_before x) ++ 61 :: gap (i_after x) ++ i_val x ++ z)) with (gap (i_before x) ++ 61 :: gap (i_after x) ++ i_val x) end.
  2:{ symmetry. replace (gap (i_before x) ++ 61 :: gap (i_after x) ++ i_val x ++ gap (i_gap x) ++ y) with
        ((gap (i_before x) ++ 61 :: gap (i_after x) ++ i_val x) ++ gap (i_gap x) ++ y) by (rewrite <- !app_assoc; cbn [app]; rewrite <- !app_assoc; reflexivity).
      apply firstn_app_exact. }
  apply skip_gap; [exact Hy|]. reflexivity.
Qed.
Definition i_read (x : item) : str * pyval := (lower (i_name x), VStr (unescape (val_read (i_val x)))).
Lemma unescape_nil : unescape [] = []. Proof. reflexivity. Qed.
Lemma cattr_value_read : forall w cs y v z, val_ok y v -> cap G_hp_rest cs = Some z -> z <> [] -> cap G_hp_value cs = Some v ->
  attr_value (mkm w cs) = VStr (unescape (val_read v)).
Proof.
  intros w cs y v z Hv H1 H0 H2. unfold attr_value, group0, group. cbn [mcaps]. rewrite H1, H2. destruct z as [|z0 z]; [congruence|]. cbv zeta.
  assert (N : forall x, VStr (match x with [] => [] | _ => unescape x end) = VStr (unescape x)) by (intros []; reflexivity).
  rewrite N. f_equal. f_equal. destruct Hv as [v Hv|v Hv|c v V1 V2 V3 V4].
  - cbn [firstn rev]. rewrite rev_app_distr. cbn [rev app firstn]. change (str_eqb [34] [39] || str_eqb [34] [34]) with true.
    cbn [andb]. rewrite str_eqb_refl. reflexivity.
  - cbn [firstn rev]. rewrite rev_app_distr. cbn [rev app firstn]. change (str_eqb [39] [39] || str_eqb [39] [34]) with true.
    cbn [andb]. rewrite str_eqb_refl. reflexivity.
  - cbn [firstn val_read]. rewrite V1. unfold is_quote in V1. apply orb_false_iff in V1 as [V5 V6]. cbn [str_eqb]. rewrite V5, V6. reflexivity.
Qed.
Lemma cattr_loop : forall l s y pre fuel, items_ok l s -> (l <> [] -> sp_before (rev pre)) -> (List.length l < fuel)%nat ->
  attr_loop fuel (pre ++ isrcs l ++ fin_end s ++ y) (List.length pre) (List.length (pre ++ isrcs l ++ fin_end s)) =
  (map i_read l, List.length (pre ++ isrcs l)).
Proof.
  induction l as [|x l IH]; intros s y pre fuel Hl Hp Hf; (destruct fuel as [|fuel]; [lia|]); cbn [attr_loop].
  - cbn [isrcs flat_map app] in *. replace (Nat.ltb _ _) with true.
    2:{ symmetry. apply Nat.ltb_lt. rewrite !app_length. destruct s; cbn; lia. }
    rewrite match_at_app, attrfind_no. rewrite app_nil_r. reflexivity.
  - destruct Hl as (H1 & H2 & H3 & H4). cbn [isrcs flat_map] in *. fold (isrcs l) in *.
    replace (Nat.ltb _ _) with true.
    2:{ symmetry. apply Nat.ltb_lt. rewrite !app_length. destruct s; cbn; lia. }
    rewrite match_at_app. rewrite <- !app_assoc.
    destruct (cattrfind_take x (isrcs l ++ fin_end s ++ y) (rev pre)) as (cs & E & C1 & C2 & C3).
    { split; [exact H1|apply H3]. } { apply srcs_stop. exact H4. } { apply Hp. discriminate. }
    rewrite E. cbn [mtxt].
    replace (List.length pre + List.length (i_src x))%nat with (List.length (pre ++ i_src x)) by (rewrite app_length; lia).
    specialize (IH s y (pre ++ i_src x) fuel H4). rewrite <- !app_assoc in IH. rewrite IH.
    + cbn [map]. unfold i_read at 3. rewrite (cattr_value_read _ _ _ _ _ (H3 []) C2); [|destruct (i_before x); discriminate|exact C3].
      unfold group0, group. cbn [mcaps]. rewrite C1. reflexivity.
    + intro N. rewrite rev_app_distr, rev_src. apply sp_gap, H2, N.
    + cbn [List.length] in Hf. lia.
Qed.
Lemma srcs_length : forall l s, items_ok l s -> (List.length l <= List.length (isrcs l))%nat.
Proof.
  induction l as [|x l IH]; intros s H; [reflexivity|]. destruct H as (H1 & _ & _ & H). cbn [isrcs flat_map List.length]. rewrite app_length. fold (isrcs l). specialize (IH s H).
  destruct (i_name x) as [|c n] eqn:E; [discriminate H1|]. unfold i_src, i_core. rewrite E. cbn [app List.length]. lia.
Qed.
(** a start tag in any spelling *)
Theorem cstarttag_take : forall t g l s y, start_ok t g l s ->
  parse_starttag (start t g l s ++ y) =
  Next [if s then TStartEnd (lower t) (map i_read l) else TStart (lower t) (map i_read l)] y
    (if s then None else if in_list [$ "script"; $ "style"] (lower t) then Some (lower t) else None).
Proof.
  intros t g l s y H. unfold parse_starttag. rewrite cwhole_tag by exact H. destruct H as (Ht & Hl & Hg).
  set (e := List.length (start t g l s)).
  assert (G : start t g l s ++ y = [60] ++ (t ++ gap g) ++ isrcs l ++ fin_end s ++ y) by (unfold start; cbn [app]; rewrite <- !app_assoc; reflexivity).
  rewrite G at 1. rewrite (match_at_app tagfind_re [60]). rewrite (ctagfind_take t g l s y _ (conj Ht (conj Hl Hg))). cbn [mtxt].
  replace (group0 G_hp_tag _) with t by reflexivity.
  assert (K : attr_loop (S e) (start t g l s ++ y) (1 + List.length (t ++ gap g)) e = (map i_read l, List.length (60 :: (t ++ gap g) ++ isrcs l))).
  { pose proof (cattr_loop l s y (60 :: t ++ gap g) (S e) Hl) as Q. 
    replace (List.length ((60 :: t ++ gap g) ++ isrcs l ++ fin_end s)) with e in Q by (unfold e, start; cbn [app List.length]; rewrite <- !app_assoc; reflexivity).
    rewrite G. change ([60] ++ (t ++ gap g) ++ isrcs l ++ fin_end s ++ y) with ((60 :: t ++ gap g) ++ isrcs l ++ fin_end s ++ y). apply Q.
    - intro N. cbn [rev]. rewrite rev_app_distr, rev_gap, <- app_assoc. apply sp_gap, Hg. left. exact N.
    - pose proof (srcs_length l s Hl). unfold e, start. cbn [List.length]. rewrite !app_length. lia. }
  match goal with |- context [attr_loop ?a ?b ?c ?d] => replace (attr_loop a b c d) with (map i_read l, List.length (60 :: (t ++ gap g) ++ isrcs l)) by (symmetry; exact K) end.
  unfold e. rewrite skipn_app_exact, firstn_app_exact'.
  replace (start t g l s) with ((60 :: (t ++ gap g) ++ isrcs l) ++ fin_end s) by (unfold start; cbn [app]; rewrite <- !app_assoc; reflexivity).
  rewrite skipn_app_exact. destruct s; cbn [fin_end].
  - change (str_eqb (strip [47; 62]) [62]) with false. change (str_eqb (strip [47; 62]) [47; 62]) with true. reflexivity.
  - change (str_eqb (strip [62]) [62]) with true. reflexivity.
Qed.
Theorem cone_start : forall t g l s y, start_ok t g l s ->
  one None (start t g l s ++ y) =
  Next [if s then TStartEnd (lower t) (map i_read l) else TStart (lower t) (map i_read l)] y
    (if s then None else if in_list [$ "script"; $ "style"] (lower t) then Some (lower t) else None).
Proof.
  intros t g l s y H. rewrite <- (cstarttag_take t g l s y H). destruct H as (H & _). destruct t as [|c t]; [discriminate|].
  cbn [cname] in H. apply andb_true_iff in H as [H _]. unfold one, start. cbn [app]. change (60 =? 60) with true. cbv iota. cbn [lt_step].
  rewrite (letter_alpha c H). reflexivity.
Qed.
Theorem cone_end : forall t g y, cname t = true -> one None (60 :: 47 :: t ++ gap g ++ 62 :: y) = Next [TEnd (lower t)] y None.
Proof.
  intros t g y Ht. unfold one. change (60 =? 60) with true. cbv iota. cbn [lt_step]. change (is_alpha 47) with false. change (47 =? 47) with true. cbv iota.
  unfold parse_endtag. cbn [skipn]. pose proof Ht as Ht'. apply cname_chars in Ht' as [Hc Hne].
  assert (F : find 62 (47 :: t ++ gap g ++ 62 :: y) = Some (47 :: t ++ gap g, y)).
  { replace (47 :: t ++ gap g ++ 62 :: y) with ((47 :: t ++ gap g) ++ 62 :: y) by (cbn [app]; rewrite <- app_assoc; reflexivity).
    apply split1_here. intros [I|I]; [discriminate|]. apply in_app_or in I as [I|I]; [rewrite forallb_forall in Hc; apply Hc, cchar_range in I; lia|].
    apply repeat_spec in I. discriminate. }
  rewrite F.
  assert (M : match_at endtagfind_re (60 :: 47 :: t ++ gap g ++ 62 :: y) 0 = Some (mkm (60 :: 47 :: t ++ gap g ++ [62]) [(G_hp_tag, t)])).
  { unfold match_at. cbn [firstn skipn rev].
    replace (60 :: 47 :: t ++ gap g ++ 62 :: y) with ((60 :: 47 :: t ++ gap g ++ [62]) ++ y) by (cbn [app]; rewrite <- !app_assoc; reflexivity).
    apply try_at_hit. cbn [app]. rewrite <- !app_assoc. cbn [app]. unfold endtagfind_re, seqs. rewrite m_seq.
    change (60 :: 47 :: t ++ gap g ++ 62 :: y) with ($ "</" ++ t ++ gap g ++ 62 :: y). rewrite m_lit, m_seq.
    destruct t as [|a t]; [congruence|]. cbn [forallb] in Hc. apply andb_true_iff in Hc as [Ha Hc]. cbn [cname] in Ht. apply andb_true_iff in Ht as [Ht _].
    apply sps_none; [cbn; apply cchar_attr in Ha; tauto|]. rewrite m_seq, m_grp, m_seq. cbn [app]. rewrite m_chr, (letter_alpha a Ht).
    apply star_take.
    - eapply forallb_impl; [|exact Hc]. intros x Hx. apply cchar_range in Hx. unfold is_alnum, is_alpha, is_dec. cls.
    - destruct g; reflexivity.
    - cbn [bef rest caps]. rewrite m_seq. apply sps_gap; [reflexivity|]. rewrite m_c1. f_equal. f_equal.
      + cbn [rev L app]. rewrite !rev_app_distr, rev_gap. cbn [rev app]. rewrite <- !app_assoc. reflexivity.
      + f_equal. f_equal. apply (firstn_app_exact (a :: t)). }
  rewrite M. replace (group0 G_hp_tag _) with t by reflexivity. reflexivity.
Qed.
