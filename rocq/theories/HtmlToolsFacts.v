(** * Facts about html_tools *)
From Coq Require Import String List Arith NArith ZArith Bool Lia.
From Verif Require Import PyStr GNames Regex RegexFacts RegexRun PyStrFacts Rules Utils Res Entities HtmlTools Spec2.
Import ListNotations.
Open Scope N_scope.

Lemma meant_named : forall tab n, name2cp tab n =
  match List.find (fun kv : string * N => str_eqb (L (fst kv)) n) tab with Some (_, v) => Some v | None => None end.
Proof. induction tab as [|[k v] tab IH]; intro n; [reflexivity|]. simpl. destruct (str_eqb (L k) n); auto. Qed.

(** ** int() of decimal digits *)
Lemma dec_digit : forall c, is_dec c = true -> digit_val c = Some (c - 48) /\ is_digit c = true /\ is_space c = false /\
  c <> 45 /\ c <> 43.
Proof.
  unfold is_dec, is_digit, digit_val. intros c H. pose proof H as H'. apply andb_true_iff in H as [H1 H2].
  apply N.leb_le in H1, H2.
  assert (E : c <? 128 = true) by (apply N.ltb_lt; lia). rewrite E, H'. split; [reflexivity|]. split; [reflexivity|].
  split; [|lia]. unfold is_space.
  repeat match goal with |- context[?a <=? ?b] => destruct (N.leb_spec a b); try lia
                       | |- context[?a =? ?b] => destruct (N.eqb_spec a b); try lia end; reflexivity.
Qed.
Lemma int_digits_dec : forall s us acc cnt, forallb is_dec s = true -> (us = true -> s <> []) ->
  int_digits us acc cnt s = Some (fold_left (fun a c => a * 10 + (c - 48)) s acc, cnt + N.of_nat (List.length s)).
Proof.
  induction s as [|c s IH]; intros us acc cnt H Hu.
  - destruct us; [exfalso; exact (Hu eq_refl eq_refl)|]. cbn [int_digits fold_left List.length]. do 2 f_equal. lia.
  - simpl in H. apply andb_true_iff in H as [Hc H]. destruct (dec_digit c Hc) as (E & _).
    cbn [int_digits fold_left]. rewrite E. rewrite IH by (auto; discriminate). f_equal. f_equal.
    cbn [List.length]. lia.
Qed.
Lemma int_space_space : forall c, is_space c = false -> int_space c = false.
Proof. unfold int_space. intros c ->. reflexivity. Qed.
Lemma forallb_last : forall {A} (p : A -> bool) l, forallb p l = true -> l <> [] -> exists a d, l = a ++ [d] /\ p d = true.
Proof.
  intros A p l H Hne. destruct (exists_last Hne) as (a & d & E). exists a, d. split; [exact E|].
  rewrite E, forallb_app in H. apply andb_true_iff in H as [_ H]. simpl in H. apply andb_true_iff in H as [H _]. exact H.
Qed.
Lemma strip_by_clean : forall p s, forallb (fun c => negb (p c)) s = true -> strip_by p s = s.
Proof.
  intros p s H. unfold strip_by, lstrip_by.
  assert (E : drop_while p s = s).
  { destruct s as [|c s]; [reflexivity|]. simpl in H. apply andb_true_iff in H as [H _]. apply negb_true_iff in H.
    apply drop_while_none. exact H. }
  rewrite E. destruct s as [|c s]; [reflexivity|].
  destruct (forallb_last _ _ H) as (a & d & E2 & Hd); [discriminate|].
  rewrite E2. apply rstrip_keep. apply negb_true_iff in Hd. exact Hd.
Qed.
Lemma py_int_dec : forall d, d <> [] -> forallb is_dec d = true -> (N.of_nat (List.length d) <= 4300) ->
  py_int d = Some (Z.of_N (dec_value d)).
Proof.
  intros d Hne Hd Hl. unfold py_int.
  assert (Es : strip_by int_space d = d).
  { apply strip_by_clean. rewrite forallb_forall in *. intros c Hc. apply Hd, dec_digit in Hc as (_ & _ & E & _).
    rewrite (int_space_space _ E). reflexivity. }
  rewrite Es. destruct d as [|c d]; [congruence|].
  pose proof Hd as Hd'. simpl in Hd'. apply andb_true_iff in Hd' as [Hc _]. apply dec_digit in Hc as (_ & _ & _ & H1 & H2).
  match goal with |- context[let (_, _) := ?X in _] => assert (E : X = (false, c :: d)) end.
  { destruct c as [|p]; [reflexivity|]. 
    do 6 (destruct p as [p|p|]; try reflexivity; try congruence). }
  rewrite E. rewrite int_digits_dec by (auto; discriminate).
  assert (Hm : 0 + N.of_nat (List.length (c :: d)) <=? int_max_digits = true).
  { apply N.leb_le. exact Hl. }
  rewrite Hm. reflexivity.
Qed.
Lemma py_chr_N : forall n, (do c <- py_chr (Z.of_N n); Ok [c]) = code_point n.
Proof.
  intro n. unfold py_chr, code_point.
  destruct (Z.ltb_spec (Z.of_N n) 0); [lia|].
  destruct (Z.ltb_spec (Z.of_N n) 1114112); destruct (N.ltb_spec n 1114112); try lia.
  - simpl. rewrite N2Z.id. reflexivity.
  - simpl. destruct (Z.ltb_spec (Z.of_N n) 2147483648); destruct (N.ltb_spec n 2147483648); try lia; reflexivity.
Qed.
Lemma int16_hex : forall d, forallb is_hex d = true -> int16 d = hex_value d.
Proof.
  unfold int16, hex_value. intro d. generalize 0 as a. induction d as [|c d IH]; intros a H; [reflexivity|].
  simpl in H. apply andb_true_iff in H as [Hc H]. simpl. rewrite IH by exact H. f_equal. f_equal.
  unfold hex_val. destruct (N.ltb_spec c 58), (N.leb_spec c 57), (N.ltb_spec c 71), (N.leb_spec c 70); try lia; reflexivity.
Qed.

(** ** one reference *)
Lemma plus_take : forall p x y b cs k r, x <> [] -> forallb p x = true -> stop p y ->
  k (mk (rev x ++ b) y cs) = Some r -> m (RPlus true (RChr p)) (mk b (x ++ y) cs) k = Some r.
Proof.
  intros p [|c x] y b cs k r Hne Hx Hy Hk; [congruence|]. unfold RPlus. rewrite m_seq.
  change ((c :: x) ++ y) with (c :: (x ++ y)). rewrite m_chr.
  simpl in Hx. apply andb_true_iff in Hx as [Hc Hx]. rewrite Hc.
  apply star_take; auto. simpl in Hk. rewrite <- app_assoc in Hk. exact Hk.
Qed.
Lemma plus_stop : forall p y b cs k, stop p y -> m (RPlus true (RChr p)) (mk b y cs) k = None.
Proof. intros. unfold RPlus. rewrite m_seq. apply m_chr_stop. assumption. Qed.

Lemma ent_hit_named : forall b n t, n <> [] -> forallb is_alpha n = true ->
  m entities_re (mk b (($ "&" ++ n ++ $ ";") ++ t) []) (fun s => Some s) =
  Some (mk (rev ($ "&" ++ n ++ $ ";") ++ b) t [(G_named, n)]).
Proof.
  intros b n t Hne Hn. rewrite <- !app_assoc.
  assert (Hh : stop (N.eqb 35) (n ++ $ ";" ++ t)).
  { destruct n as [|c n]; [congruence|]. simpl in Hn. apply andb_true_iff in Hn as [Hc _]. cbn [app stop].
    apply N.eqb_neq. intros <-. discriminate. }
  unfold entities_re, alts, seqs.
  rewrite m_alt. rewrite m_seq. cbn [lit]. rewrite m_seq. unfold c1 at 1. cbn [app].
  rewrite m_chr. cbn [N.eqb Pos.eqb]. unfold c1 at 1. rewrite m_chr_stop by exact Hh. cbn [orelse].
  rewrite m_alt. rewrite m_seq. rewrite m_seq. unfold c1 at 1.
  rewrite m_chr. cbn [N.eqb Pos.eqb]. unfold c1 at 1. rewrite m_seq. rewrite m_chr_stop by exact Hh. cbn [orelse].
  rewrite m_seq. unfold c1 at 1. rewrite m_chr. cbn [N.eqb Pos.eqb]. rewrite m_seq, m_grp.
  apply plus_take; auto.
  - reflexivity.
  - cbn [bef rest caps]. unfold c1. rewrite m_chr, N.eqb_refl.
    change (59 :: t) with ([59] ++ t). rewrite firstn_app_exact.
    cbn [rev app]. rewrite !rev_app_distr. cbn [rev app]. rewrite <- !app_assoc. reflexivity.
Qed.
Lemma ent_hit_dec : forall b n t, n <> [] -> forallb is_dec n = true ->
  m entities_re (mk b (($ "&#" ++ n ++ $ ";") ++ t) []) (fun s => Some s) =
  Some (mk (rev ($ "&#" ++ n ++ $ ";") ++ b) t [(G_number, n)]).
Proof.
  intros b n t Hne Hn. rewrite <- !app_assoc.
  unfold entities_re, alts, seqs. rewrite m_alt, m_seq, m_lit, m_seq, m_grp.
  rewrite (plus_take is_digit n (59 :: t) _ _ _ (mk (rev ($ "&#" ++ n ++ $ ";") ++ b) t [(G_number, n)])); auto.
  - rewrite forallb_forall in *. intros c Hc. apply Hn, dec_digit in Hc. tauto.
  - reflexivity.
  - cbn [bef rest caps]. unfold c1. rewrite m_chr, N.eqb_refl.
    change ($ ";" ++ t) with (59 :: t). rewrite firstn_app_exact.
    cbn [rev app]. rewrite !rev_app_distr. cbn [rev app]. rewrite <- !app_assoc. reflexivity.
Qed.
Lemma ent_hit_hex : forall b n t, n <> [] -> forallb is_hex n = true ->
  m entities_re (mk b (($ "&#x" ++ n ++ $ ";") ++ t) []) (fun s => Some s) =
  Some (mk (rev ($ "&#x" ++ n ++ $ ";") ++ b) t [(G_hex, n)]).
Proof.
  intros b n t Hne Hn. rewrite <- !app_assoc.
  unfold entities_re, alts, seqs. rewrite m_alt, m_seq.
  change ($ "&#x" ++ n ++ $ ";" ++ t) with ($ "&#" ++ (120 :: n ++ $ ";" ++ t)) at 1. rewrite m_lit, m_seq, m_grp.
  rewrite plus_stop by reflexivity. cbn [orelse].
  rewrite m_alt, m_seq, m_lit, m_seq, m_grp.
  rewrite (plus_take is_hex n (59 :: t) _ _ _ (mk (rev ($ "&#x" ++ n ++ $ ";") ++ b) t [(G_hex, n)])); auto.
  - reflexivity.
  - cbn [bef rest caps]. unfold c1. rewrite m_chr, N.eqb_refl.
    change ($ ";" ++ t) with (59 :: t). rewrite firstn_app_exact.
    cbn [rev app]. rewrite !rev_app_distr. cbn [rev app]. rewrite <- !app_assoc. reflexivity.
Qed.
Lemma ent_miss : forall b c t, c <> 38 -> m entities_re (mk b (c :: t) []) (fun s => Some s) = None.
Proof.
  intros b c t H. apply N.eqb_neq in H. rewrite N.eqb_sym in H.
  unfold entities_re, alts, seqs. rewrite !m_alt, !m_seq. cbn [lit]. rewrite !m_seq. unfold c1.
  rewrite !m_chr, H. reflexivity.
Qed.

(** ** all of them *)
Definition sub_ent := sub_go (fun x (_ : unit) => do a <- replace_entity x; Ok (a, tt)).
Lemma ent_text : forall w b t, ~ In 38 w ->
  scan entities_re 0 b (w ++ t) = map inl w ++ scan entities_re 0 (rev w ++ b) t.
Proof.
  induction w as [|c w IH]; intros b t H; [reflexivity|].
  change ((c :: w) ++ t) with (c :: (w ++ t)). rewrite scan_miss.
  - rewrite IH by (intro; apply H; right; assumption). simpl. rewrite <- app_assoc. reflexivity.
  - apply ent_miss. intro; apply H; left; congruence.
Qed.
Lemma sub_text : forall w l, sub_ent (map inl w ++ l) tt = do (r, s) <- sub_ent l tt; Ok (w ++ r, s).
Proof.
  induction w as [|c w IH]; intro l.
  - simpl. destruct (sub_ent l tt) as [[r s]|e]; reflexivity.
  - change (sub_ent (map inl (c :: w) ++ l) tt) with (do (r, s) <- sub_ent (map inl w ++ l) tt; Ok (c :: r, s)).
    rewrite IH. destruct (sub_ent l tt) as [[r s]|e]; reflexivity.
Qed.
Lemma write_one : forall e b t, ent_ok e ->
  sub_ent (scan entities_re 0 b (write e ++ t)) tt =
  do a <- meant e; do (r, s) <- sub_ent (scan entities_re 0 (rev (write e) ++ b) t) tt; Ok (a ++ r, s).
Proof.
  intros e b t H. destruct e as [w|d|d|n]; cbn [write meant] in *.
  - rewrite ent_text by exact H. rewrite sub_text. reflexivity.
  - destruct H as (Hne & Hd & Hl). rewrite (scan_hit entities_re b ($ "&#" ++ d ++ $ ";") t [(G_number, d)]); [|discriminate|apply ent_hit_dec; assumption].
    cbn [sub_ent sub_go]. unfold replace_entity at 1, group at 1. cbn [mcaps cap gname_beq].
    unfold replace_number. rewrite (py_int_dec d Hne Hd Hl). rewrite py_chr_N.
    destruct (code_point (dec_value d)); reflexivity.
  - destruct H as (Hne & Hd). rewrite (scan_hit entities_re b ($ "&#x" ++ d ++ $ ";") t [(G_hex, d)]); [|discriminate|apply ent_hit_hex; assumption].
    cbn [sub_ent sub_go]. unfold replace_entity at 1, group at 1 2. cbn [mcaps cap gname_beq].
    unfold replace_hex. rewrite (int16_hex d Hd). rewrite py_chr_N.
    destruct (code_point (hex_value d)); reflexivity.
  - destruct H as (Hne & Hd). rewrite (scan_hit entities_re b ($ "&" ++ n ++ $ ";") t [(G_named, n)]); [|discriminate|apply ent_hit_named; assumption].
    cbn [sub_ent sub_go]. unfold replace_entity at 1, group at 1 2 3. cbn [mcaps cap gname_beq].
    unfold replace_named. rewrite meant_named.
    destruct (str_eqb n ($ "nbsp")); [reflexivity|].
    destruct (List.find _ name2codepoint_tab) as [[k v]|]; reflexivity.
Qed.
Lemma write_all : forall l b, Forall ent_ok l ->
  sub_ent (scan entities_re 0 b (flat_map write l)) tt = do r <- meant_all l; Ok (r, tt).
Proof.
  induction l as [|e l IH]; intros b H.
  - simpl flat_map. reflexivity.
  - inversion H; subst. cbn [flat_map]. rewrite write_one by assumption. rewrite IH by assumption.
    cbn [meant_all]. destruct (meant e) as [a|x]; [|reflexivity]. simpl. destruct (meant_all l); reflexivity.
Qed.
Theorem replace_all_spec : forall l, Forall ent_ok l -> replace_all (flat_map write l) = meant_all l.
Proof.
  intros l H. unfold replace_all, resub_r, resub_st. fold sub_ent. rewrite write_all by exact H.
  destruct (meant_all l); reflexivity.
Qed.

Definition esc_ent (c : char) : ent :=
  if c =? 38 then Named ($ "amp") else if c =? 60 then Named ($ "lt") else if c =? 62 then Named ($ "gt") else Text [c].
Theorem replace_all_escape : forall t, replace_all (escape t) = Ok t.
Proof.
  intro t. rewrite escape_esc. unfold esc.
  assert (E : flat_map esc_char t = flat_map write (map esc_ent t)).
  { induction t as [|c t IH]; [reflexivity|]. cbn [flat_map map]. rewrite IH. f_equal.
    unfold esc_char, esc_ent. destruct (c =? 38), (c =? 60), (c =? 62); reflexivity. }
  rewrite E, replace_all_spec.
  - induction t as [|c t IH]; [reflexivity|]. cbn [map meant_all]. rewrite IH.
    + unfold esc_ent. destruct (N.eqb_spec c 38); [subst; reflexivity|].
      destruct (N.eqb_spec c 60); [subst; reflexivity|]. destruct (N.eqb_spec c 62); [subst; reflexivity|]. reflexivity.
    + clear. induction t as [|c t IH]; [reflexivity|]. cbn [flat_map map]. rewrite IH. f_equal.
      unfold esc_char, esc_ent. destruct (c =? 38), (c =? 60), (c =? 62); reflexivity.
  - clear. induction t as [|c t IH]; [constructor|]. cbn [map]. apply Forall_cons; [|exact IH].
    unfold esc_ent. destruct (N.eqb_spec c 38); [split; [discriminate|reflexivity]|].
    destruct (c =? 60); [split; [discriminate|reflexivity]|]. destruct (c =? 62); [split; [discriminate|reflexivity]|].
    simpl. intros [|[]]. congruence.
Qed.

(** ** strip_html *)
Lemma visible_app : forall a b, visible (a ++ b) = visible a ++ visible b.
Proof. intros. unfold visible. induction a as [|c a IH]; simpl; [reflexivity|]. rewrite IH. destruct (is_space c); reflexivity. Qed.
Lemma visible_spaces : forall a, forallb is_space a = true -> visible a = [].
Proof.
  induction a as [|c a IH]; intro H; [reflexivity|]. simpl in H. apply andb_true_iff in H as [Hc H].
  unfold visible in *. simpl. rewrite Hc. simpl. auto.
Qed.
Lemma visible_strip : forall s, visible (strip s) = visible s.
Proof.
  intro s. destruct (strip_split is_space s) as (a & b & E & Ha & Hb). fold (strip s) in E.
  rewrite E at 2. rewrite !visible_app, (visible_spaces a Ha), (visible_spaces b Hb), app_nil_r. reflexivity.
Qed.
Lemma join_cons : forall sep x l, l <> [] -> join sep (x :: l) = x ++ sep ++ join sep l.
Proof. intros sep x [|y l] H; [congruence|reflexivity]. Qed.
Lemma split_on_nonempty : forall c s, split_on c s <> [].
Proof. intros c [|d s]; simpl; [discriminate|]. destruct (d =? c); [discriminate|]. destruct (split_on c s); discriminate. Qed.
Lemma visible_join : forall sep l, forallb is_space sep = true -> visible (join sep l) = flat_map visible l.
Proof.
  intros sep l Hs. induction l as [|x l IH]; [reflexivity|]. destruct l as [|y l].
  - simpl. rewrite app_nil_r. reflexivity.
  - rewrite join_cons by discriminate. rewrite !visible_app, IH, (visible_spaces sep Hs). reflexivity.
Qed.
Lemma visible_split : forall c s, is_space c = true -> flat_map visible (split_on c s) = visible s.
Proof.
  intros c s Hc. induction s as [|d s IH]; [reflexivity|]. cbn [split_on].
  destruct (N.eqb_spec d c).
  - subst. cbn [flat_map]. rewrite IH. unfold visible. simpl. rewrite Hc. reflexivity.
  - destruct (split_on c s) as [|h r] eqn:E; [exfalso; eapply split_on_nonempty; eauto|].
    cbn [flat_map] in *. change (d :: s) with ([d] ++ s). change (d :: h) with ([d] ++ h).
    rewrite !visible_app, <- app_assoc, IH. reflexivity.
Qed.
Lemma visible_strip_tag : forall x, visible (strip_tag x) = visible (mtxt x).
Proof.
  intro x. unfold strip_tag.
  assert (E32 : visible [32] = []) by reflexivity.
  repeat match goal with |- context[if ?b then _ else _] => destruct b end;
    rewrite ?visible_app, ?visible_strip, ?E32, ?app_nil_r, ?app_nil_l; reflexivity.
Qed.
Lemma resub_visible : forall r f s, (forall x, visible (f x) = visible (mtxt x)) -> visible (resub r f s) = visible s.
Proof.
  intros r f s H. unfold resub.
  rewrite <- (scan_partition (List.length s) r [] s (le_n _)) at 2.
  induction (scan r 0 [] s) as [|[c|x] l IH]; [reflexivity| |]; cbn [flat_map piece_txt]; rewrite !visible_app, IH, ?H; reflexivity.
Qed.
Theorem strip_html_visible : forall s, visible (strip_html s) = visible s.
Proof.
  intro s. unfold strip_html. rewrite resub_visible by exact visible_strip_tag.
  rewrite visible_join by reflexivity.
  assert (E : forall l, flat_map visible (map strip l) = flat_map visible l).
  { induction l as [|x l IH]; [reflexivity|]. simpl. rewrite IH, visible_strip. reflexivity. }
  rewrite E, visible_split by reflexivity. apply visible_strip.
Qed.

(** characters of a stripped text *)
Lemma strip_In : forall c s, In c (strip s) -> In c s.
Proof.
  intros c s H. destruct (strip_split is_space s) as (a & b & E & _). fold (strip s) in E.
  rewrite E. rewrite !in_app_iff. auto.
Qed.
Lemma split_on_In : forall c s x d, In x (split_on c s) -> In d x -> In d s /\ d <> c.
Proof.
  intros c. induction s as [|e s IH]; intros x d Hx Hd.
  - destruct Hx as [<-|[]]. destruct Hd.
  - cbn [split_on] in Hx. destruct (N.eqb_spec e c).
    + destruct Hx as [<-|Hx]; [destruct Hd|]. destruct (IH _ _ Hx Hd). split; [right|]; assumption.
    + destruct (split_on c s) as [|h r] eqn:E; [exfalso; eapply split_on_nonempty; eauto|].
      destruct Hx as [<-|Hx].
      * destruct Hd as [<-|Hd]; [split; [left|]; congruence|].
        destruct (IH h d (or_introl eq_refl) Hd). split; [right|]; assumption.
      * destruct (IH x d (or_intror Hx) Hd). split; [right|]; assumption.
Qed.
Lemma join_In : forall sep l c, In c (join sep l) -> In c sep \/ exists x, In x l /\ In c x.
Proof.
  intros sep. induction l as [|x l IH]; intros c H; [destruct H|]. destruct l as [|y l].
  - right. exists x. split; [left; reflexivity|exact H].
  - rewrite join_cons in H by discriminate. rewrite !in_app_iff in H. destruct H as [H|[H|H]].
    + right. exists x. split; [left; reflexivity|exact H].
    + auto.
    + apply IH in H as [H|(z & Hz & H)]; [auto|]. right. exists z. split; [right; exact Hz|exact H].
Qed.
Lemma strip_tag_In : forall c x, In c (strip_tag x) -> c = 32 \/ In c (mtxt x).
Proof.
  intros c x. unfold strip_tag.
  repeat match goal with |- context[if ?b then _ else _] => destruct b end;
    rewrite ?in_app_iff; simpl; intuition (auto using strip_In).
Qed.
Theorem strip_html_no_newline : forall s, ~ In 10 (strip_html s).
Proof.
  intros s H. unfold strip_html, resub in H.
  set (d := join [32] (map strip (split_on 10 (strip s)))) in H.
  assert (Hd : ~ In 10 d).
  { intro Hd. apply join_In in Hd as [[Hd|[]]|(x & Hx & Hd)]; [discriminate|].
    apply in_map_iff in Hx as (y & <- & Hy). apply strip_In in Hd.
    destruct (split_on_In _ _ _ _ Hy Hd). congruence. }
  rewrite <- (scan_partition (List.length d) strip_html_re [] d (le_n _)) in Hd.
  apply Hd. clear Hd. clearbody d.
  apply in_flat_map in H as (p & Hp & H). apply in_flat_map. exists p. split; [exact Hp|].
  destruct p as [c|x]; [exact H|]. apply strip_tag_In in H as [H|H]; [discriminate|exact H].
Qed.

(** ** clean_whitespace *)
Definition any : char -> bool := fun _ => true.
Theorem clean_whitespace_spec : forall (a core z : str),
  forallb is_space a = true -> forallb is_space z = true -> (core = [] -> z = []) ->
  (forall (c : N) (t : str), core = c :: t -> is_space c = false) -> (forall (c : N) (t : str), core = t ++ [c] -> is_space c = false) ->
  clean_whitespace (a ++ core ++ z) =
  (if contains [32] a then [32] else []) ++ core ++
  (if contains [10] z then [10] else if contains [32] z then [32] else z).
Proof.
  intros a core z Ha Hz Hc Hfirst Hlast.
  remember (a ++ core ++ z) as s eqn:Es.
  destruct s as [|s0 s1].
  { destruct a; [|discriminate]. destruct core; [|discriminate]. destruct z; [|discriminate]. reflexivity. }
  rewrite Es. clear s0 s1 Es.
  assert (Hm : forall w, w = a ++ core ++ z -> w <> [] -> m space_re (mk [] (w ++ []) []) (fun s => Some s) =
     Some (mk (rev w ++ []) [] [(G_ws_end, z); (G_ws_txt, core); (G_ws_start, a)])).
  { intros w Ew Hw. unfold space_re, seqs. rewrite m_seq, m_bos, m_seq, m_grp.
    rewrite app_nil_r. rewrite Ew at 1. unfold sps, sp. apply star_take; [exact Ha| |].
    { destruct core as [|c core]; [rewrite (Hc eq_refl); exact I|]. simpl. eapply Hfirst. reflexivity. }
    cbn [bef rest caps]. rewrite m_seq, m_grp. apply lazy_until.
    - rewrite forallb_forall. reflexivity.
    - cbn [bef rest caps]. rewrite m_seq, m_grp.
      rewrite <- (app_nil_r z) at 1. apply star_take; [exact Hz|exact I|].
      cbn [bef rest caps m]. rewrite Ew. f_equal.
      rewrite !app_nil_r, !firstn_app_exact. cbn [List.length]. rewrite Nat.sub_0_r, firstn_all.
      rewrite !rev_app_distr, <- app_assoc. reflexivity.
    - intros x1 x2 E Hne. rewrite m_seq. apply m_none. intros s' Hs.
      inversion Hs; subst. cbn [bef rest caps] in *.
      apply Mt_star_chr in H3 as (y & Ey & _ & _ & Hy). cbn [bef rest caps] in *.
      destruct (rest s'0) as [|d t] eqn:Er; [|reflexivity]. exfalso.
      rewrite app_nil_r in Ey. destruct (exists_last Hne) as (x3 & d & Ed).
      assert (Hd : is_space d = false) by (eapply (Hlast d (x1 ++ x3)); rewrite Ed, app_assoc; reflexivity).
      assert (Hin : In d y) by (rewrite <- Ey, Ed, !in_app_iff; simpl; auto).
      rewrite forallb_forall in Hy. rewrite (Hy d Hin) in Hd. discriminate. }
  assert (Hne : a ++ core ++ z <> [] \/ a ++ core ++ z = []) by (destruct (a ++ core ++ z); [right|left]; congruence).
  destruct Hne as [Hne|E0].
  2:{ destruct a; [|discriminate]. destruct core; [|discriminate]. destruct z; [|discriminate]. reflexivity. }
  specialize (Hm _ eq_refl Hne). unfold clean_whitespace, resub.
  rewrite <- (app_nil_r (a ++ core ++ z)) at 1.
  erewrite scan_hit; [|exact Hne|exact Hm]. cbn [flat_map].
  rewrite scan_end. rewrite at_pos_miss.
  - cbn [map flat_map]. rewrite app_nil_r. unfold ws_cleanup, group0, group. cbn [mcaps cap gname_beq]. reflexivity.
  - unfold space_re, seqs. rewrite m_seq.
    destruct (rev (a ++ core ++ z) ++ []) eqn:E; [|reflexivity].
    apply app_eq_nil in E as [E _]. apply (f_equal (@List.length N)) in E. rewrite rev_length in E.
    destruct (a ++ core ++ z); [congruence|discriminate].
Qed.
