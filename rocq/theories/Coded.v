(** * Character references in attribute values are read as they are meant *)
From Coq Require Import String List Arith NArith ZArith Bool Lia.
From Verif Require Import PyStr PyStrFacts GNames Regex RegexFacts RegexRun Rules Utils Res Entities HtmlTools HtmlToolsFacts HtmlTok HtmlTokFacts.
From Verif Require Import Spec2 Spec10 TokRun Spec41.
Import ListNotations.
Open Scope N_scope.

(** ** numbers *)
Lemma windows_ok : forall n, from_to 128 159 n = true -> assoc_N n invalid_charrefs_tab = Some (nth (N.to_nat (n - 128)) windows 0).
Proof.
  intros n H. unfold from_to in H. apply andb_true_iff in H as [H1 H2]. apply N.leb_le in H1, H2.
  assert (K : forallb (fun k => match assoc_N (128 + N.of_nat k) invalid_charrefs_tab with Some c => c =? nth k windows 0 | None => false end) (seq 0 32) = true) by (vm_compute; reflexivity).
  rewrite forallb_forall in K. specialize (K (N.to_nat (n - 128)) ltac:(apply in_seq; lia)). rewrite N2Nat.id in K. replace (128 + (n - 128)) with n in K by lia.
  destruct (assoc_N n invalid_charrefs_tab) as [c|]; [|discriminate]. apply N.eqb_eq in K. rewrite K. reflexivity.
Qed.
Lemma assoc_none : forall {A} n (l : list (N * A)), forallb (fun x => negb (n =? fst x)) l = true -> assoc_N n l = None.
Proof. intros A n. induction l as [|[x v] l IH]; intro H; [reflexivity|]. cbn [forallb fst] in H. apply andb_true_iff in H as [H1 H2]. cbn [assoc_N]. apply negb_true_iff in H1. rewrite H1. apply IH, H2. Qed.
Lemma windows_only : forall n, from_to 128 159 n = false -> n <> 0 -> n <> 13 -> assoc_N n invalid_charrefs_tab = None.
Proof.
  intros n H Z T. apply assoc_none. apply forallb_forall. intros [x c] I. cbn [fst].
  assert (K : forallb (fun p => (fst p =? 0) || (fst p =? 13) || from_to 128 159 (fst p)) invalid_charrefs_tab = true) by (vm_compute; reflexivity).
  rewrite forallb_forall in K. specialize (K _ I). cbn [fst] in K. apply negb_true_iff, N.eqb_neq. intros ->. rewrite H, orb_false_r in K. apply orb_true_iff in K as [K|K]; apply N.eqb_eq in K; congruence.
Qed.
Lemma in_range : forall a b n l, from_to a b n = true -> forallb (fun k => existsb (N.eqb (a + N.of_nat k)) l) (seq 0 (S (N.to_nat (b - a)))) = true -> existsb (N.eqb n) l = true.
Proof.
  intros a b n l H K. unfold from_to in H. apply andb_true_iff in H as [H1 H2]. apply N.leb_le in H1, H2. rewrite forallb_forall in K. specialize (K (N.to_nat (n - a)) ltac:(apply in_seq; lia)).
  rewrite N2Nat.id in K. replace (a + (n - a)) with n in K by lia. exact K.
Qed.
Lemma no_character_ok : forall n, n <= 1114111 -> from_to 128 159 n = false -> existsb (N.eqb n) invalid_codepoints_tab = no_character n.
Proof.
  intros n H W. apply eq_true_iff_eq. split; intro E.
  - apply existsb_exists in E as (x & I & E). apply N.eqb_eq in E. subst x.
    assert (K : forallb (fun k => no_character k || from_to 128 159 k) invalid_codepoints_tab = true) by (vm_compute; reflexivity).
    rewrite forallb_forall in K. specialize (K _ I). rewrite W, orb_false_r in K. exact K.
  - unfold no_character in E. rewrite !orb_true_iff in E. destruct E as [[[[[E|E]|E]|E]|E]|E].
    + apply (in_range 1 8); [exact E|vm_compute; reflexivity].
    + apply N.eqb_eq in E. subst n. vm_compute. reflexivity.
    + apply (in_range 14 31); [exact E|vm_compute; reflexivity].
    + apply N.eqb_eq in E. subst n. vm_compute. reflexivity.
    + apply (in_range 64976 65007); [exact E|vm_compute; reflexivity].
    + apply N.leb_le in E. pose proof (N.div_mod n 65536 ltac:(lia)) as D. pose proof (N.mod_lt n 65536 ltac:(lia)) as M.
      set (q := n / 65536) in *. set (r := n mod 65536) in *.
      assert (Q : q <= 16) by lia. clearbody q r. subst n.
      assert (K : forallb (fun k => existsb (N.eqb (65536 * N.of_nat k + 65534)) invalid_codepoints_tab && existsb (N.eqb (65536 * N.of_nat k + 65535)) invalid_codepoints_tab) (seq 0 17) = true) by (vm_compute; reflexivity).
      rewrite forallb_forall in K. specialize (K (N.to_nat q) ltac:(apply in_seq; lia)). rewrite N2Nat.id in K. apply andb_true_iff in K as [K1 K2].
      assert (R : r = 65534 \/ r = 65535) by lia. destruct R as [-> | ->]; assumption.
Qed.
Lemma number_ok : forall n, numeric_charref n = coded_number n.
Proof.
  intro n. unfold numeric_charref, coded_number. destruct (N.eqb_spec n 0) as [->|Z]; [reflexivity|].
  destruct (from_to 128 159 n) eqn:W; [rewrite (windows_ok n W); reflexivity|].
  destruct (N.eq_dec n 13) as [->|T]; [reflexivity|]. rewrite (windows_only n W Z T).
  change ((55296 <=? n) && (n <=? 57343)) with (from_to 55296 57343 n). destruct (N.ltb_spec 1114111 n) as [B|B]; [rewrite orb_true_r; reflexivity|]. rewrite orb_false_r.
  destruct (from_to 55296 57343 n); [reflexivity|]. rewrite (no_character_ok n B W). reflexivity.
Qed.
Lemma fold_left_ext' : forall (f g : N -> N -> N) l a, (forall a c, In c l -> f a c = g a c) -> fold_left f l a = fold_left g l a.
Proof. intros f g. induction l as [|c l IH]; intros a H; [reflexivity|]. cbn [fold_left]. rewrite (H a c (or_introl eq_refl)). apply IH. intros; apply H; right; assumption. Qed.
Lemma int16_value : forall d, int16 d = hex_value d.
Proof.
  intro d. unfold int16, hex_value. apply fold_left_ext'. intros a c _. f_equal. unfold hex_val.
  destruct (N.ltb_spec c 58), (N.leb_spec c 57); try lia. destruct (N.ltb_spec c 71), (N.leb_spec c 70); try lia. 
Qed.
Lemma int10_value : forall d, int10 d = dec_value d.
Proof. reflexivity. Qed.

(** ** names *)
Lemma tab_found : forallb (fun kx => match html5 (L (fst kx)) with Some y => str_eqb y (snd kx) | None => false end) html5_tab = true.
Proof. vm_compute. reflexivity. Qed.
Lemma html5_name : forall k x, In (k, x) html5_tab -> html5 (L k) = Some x.
Proof.
  intros k x H. pose proof (proj1 (forallb_forall _ _) tab_found _ H) as K. cbn [fst snd] in K. destruct (html5 (L k)) as [y|]; [|discriminate]. apply str_eqb_eq in K. rewrite K. reflexivity.
Qed.
Definition ref_fine (s : str) : bool := match rev s with 59 :: n => negb (match n with [] => true | _ => false end) && forallb charref_name_char n && Nat.leb (List.length n) 32 && negb (existsb (N.eqb 62) n) | _ => true end.
Lemma tab_fine : forallb (fun kx => ref_fine (L (fst kx)) && Nat.leb 2 (List.length (L (fst kx)))) html5_tab = true.
Proof. vm_compute. reflexivity. Qed.
Lemma name_meant : forall n x, name_means n x -> html5 (n ++ [59]) = Some x /\ n <> [] /\ forallb charref_name_char n = true /\ (List.length n <= 32)%nat /\ ~ In 62 n.
Proof.
  intros n x (k & I & E). pose proof (html5_name k x I) as H. rewrite E in H. split; [exact H|].
  pose proof (proj1 (forallb_forall _ _) tab_fine _ I) as K. cbn [fst] in K. rewrite E in K. apply andb_true_iff in K as [K _]. unfold ref_fine in K. rewrite rev_app_distr in K. cbn [rev app] in K.
  rewrite !andb_true_iff in K. destruct K as [[[K1 K2] K3] K4]. split; [intros ->; discriminate K1|]. split; [|split].
  - rewrite forallb_forall in *. intros c Hc. apply K2. apply -> in_rev. exact Hc.
  - apply Nat.leb_le in K3. rewrite rev_length in K3. exact K3.
  - intro J. apply negb_true_iff in K4. rewrite <- not_true_iff_false in K4. apply K4, existsb_exists. exists 62. split; [apply -> in_rev; exact J|reflexivity].
Qed.
Lemma assoc_in : forall {A} s (l : list (string * A)) v, assoc_str s l = Some v -> exists k, In (k, v) l /\ L k = s.
Proof. intros A s. induction l as [|[k x] l IH]; intros v H; [discriminate|]. cbn [assoc_str] in H. destruct (str_eqb (L k) s) eqn:E; [injection H as <-; apply str_eqb_eq in E; exists k; split; [left; reflexivity|exact E]|]. destruct (IH v H) as (k' & I & Ek). exists k'. split; [right; exact I|exact Ek]. Qed.
Lemma starts_self : forall s t, startswith s (s ++ t) = true.
Proof. induction s as [|c s IH]; intro t; [reflexivity|]. cbn [app startswith]. rewrite N.eqb_refl. apply IH. Qed.
Lemma no_prefix : forall n, (forall k x, In (k, x) html5_tab -> startswith (L k) n = false) -> (forall i, html5 (firstn i n) = None).
Proof.
  intros n H i. destruct (html5 (firstn i n)) as [v|] eqn:E; [|reflexivity]. apply assoc_in in E as (k & I & Ek). specialize (H k v I). rewrite Ek in H.
  rewrite <- (firstn_skipn i n) in H at 2. rewrite starts_self in H. discriminate.
Qed.
Lemma longest_none : forall s i, (forall j, html5 (firstn j s) = None) -> longest_html5 i s = None.
Proof. intros s i H. induction i as [|i IH]; [reflexivity|]. cbn [longest_html5]. destruct i as [|i]; [reflexivity|]. rewrite H. exact IH. Qed.

(** ** the expression *)
Lemma unesc_name : forall n b t, n <> [] -> forallb charref_name_char n = true -> (List.length n <= 32)%nat ->
  m unescape_re (mk b ((38 :: n ++ [59]) ++ t) []) (fun s => Some s) = Some (mk (rev (38 :: n ++ [59]) ++ b) t [(G_hp_entity, n ++ [59])]).
Proof.
  intros n b t Hne Hn Hl. destruct n as [|c n]; [congruence|]. cbn [forallb] in Hn. apply andb_true_iff in Hn as [Hc Hn].
  unfold unescape_re. rewrite m_seq. cbn [app]. rewrite m_c1, m_grp. unfold alts, seqs.
  assert (C35 : c =? 35 = false /\ 35 =? c = false).
  { split; apply N.eqb_neq; intro E; subst c; discriminate Hc. }
  rewrite m_alt, m_seq. unfold c1 at 1. rewrite m_chr, (proj2 C35). cbn [orelse].
  rewrite m_alt, m_seq. unfold c1 at 1. rewrite m_chr, (proj2 C35). cbn [orelse].
  rewrite m_seq, m_chr, Hc, m_seq.
  assert (U : forall n k b cs (f : st -> option st) r, forallb charref_name_char n = true -> (List.length n <= k)%nat ->
    f (mk (rev n ++ b) (59 :: t) cs) = Some r -> m (upto k (RChr charref_name_char)) (mk b (n ++ 59 :: t) cs) f = Some r).
  { clear. induction n as [|c n IH]; intros k b cs f r Hn Hl Hk.
    - cbn [app rev] in *. destruct k; [exact Hk|]. cbn [upto]. unfold ROpt. rewrite m_alt, m_seq, m_chr_stop by reflexivity. exact Hk.
    - cbn [forallb] in Hn. apply andb_true_iff in Hn as [Hc Hn]. destruct k; [cbn in Hl; lia|]. cbn [upto]. unfold ROpt.
      rewrite m_alt, m_seq. cbn [app]. rewrite m_chr, Hc. cbn [bef rest caps]. cbn [rev] in Hk. rewrite <- app_assoc in Hk.
      specialize (IH k (c :: b) cs f r Hn ltac:(cbn in Hl; lia) Hk).
      match goal with |- orelse ?x _ = _ => replace x with (Some r) by (symmetry; exact IH) end. reflexivity. }
  rewrite <- app_assoc. cbn [app]. apply U; [exact Hn|cbn in Hl; lia|].
  unfold ROpt. rewrite m_alt, m_c1. cbn [bef rest caps orelse].
  f_equal. f_equal.
  - cbn [rev]. rewrite rev_app_distr. cbn [rev app]. rewrite <- !app_assoc. reflexivity.
  - f_equal. f_equal. change (c :: n ++ 59 :: t) with (c :: n ++ [59] ++ t). rewrite app_assoc. apply (firstn_app_exact (c :: n ++ [59])).
Qed.
Lemma unesc_amp : forall n b t, n <> [] -> forallb charref_name_char n = true -> (List.length n <= 32)%nat -> stop charref_name_char t -> stop (N.eqb 59) t ->
  m unescape_re (mk b ((38 :: n) ++ t) []) (fun s => Some s) = Some (mk (rev (38 :: n) ++ b) t [(G_hp_entity, n)]).
Proof.
  intros n b t Hne Hn Hl S1 S2. destruct n as [|c n]; [congruence|]. cbn [forallb] in Hn. apply andb_true_iff in Hn as [Hc Hn].
  unfold unescape_re. rewrite m_seq. cbn [app]. rewrite m_c1, m_grp. unfold alts, seqs.
  assert (C35 : c =? 35 = false /\ 35 =? c = false).
  { split; apply N.eqb_neq; intro E; subst c; discriminate Hc. }
  rewrite m_alt, m_seq. unfold c1 at 1. rewrite m_chr, (proj2 C35). cbn [orelse].
  rewrite m_alt, m_seq. unfold c1 at 1. rewrite m_chr, (proj2 C35). cbn [orelse].
  rewrite m_seq, m_chr, Hc, m_seq.
  assert (U : forall n k b cs (f : st -> option st) r, forallb charref_name_char n = true -> (List.length n <= k)%nat ->
    f (mk (rev n ++ b) t cs) = Some r -> m (upto k (RChr charref_name_char)) (mk b (n ++ t) cs) f = Some r).
  { clear - S1. induction n as [|c n IH]; intros k b cs f r Hn Hl Hk.
    - cbn [app rev] in *. destruct k; [exact Hk|]. cbn [upto]. unfold ROpt. rewrite m_alt, m_seq, m_chr_stop by exact S1. exact Hk.
    - cbn [forallb] in Hn. apply andb_true_iff in Hn as [Hc Hn]. destruct k; [cbn in Hl; lia|]. cbn [upto]. unfold ROpt.
      rewrite m_alt, m_seq. cbn [app]. rewrite m_chr, Hc. cbn [bef rest caps]. cbn [rev] in Hk. rewrite <- app_assoc in Hk.
      specialize (IH k (c :: b) cs f r Hn ltac:(cbn in Hl; lia) Hk).
      match goal with |- orelse ?x _ = _ => replace x with (Some r) by (symmetry; exact IH) end. reflexivity. }
  apply U; [exact Hn|cbn in Hl; lia|].
  unfold ROpt. rewrite m_alt, m_c1_no by exact S2. cbn [orelse]. cbn [m bef rest caps].
  f_equal. f_equal.
  - cbn [rev]. rewrite <- !app_assoc. reflexivity.
  - f_equal. f_equal. apply (firstn_app_exact (c :: n)).
Qed.
Lemma unesc_bare : forall b t, stop charref_name_char t -> stop (N.eqb 35) t -> m unescape_re (mk b (38 :: t) []) (fun s => Some s) = None.
Proof.
  intros b t S1 S2. unfold unescape_re. rewrite m_seq, m_c1, m_grp. unfold alts, seqs.
  rewrite m_alt, m_seq, m_c1_no by exact S2. cbn [orelse]. rewrite m_alt, m_seq, m_c1_no by exact S2. cbn [orelse]. rewrite m_seq, m_chr_stop by exact S1. reflexivity.
Qed.
Lemma unesc_dec : forall d b t, all_digits dec d = true ->
  m unescape_re (mk b ((38 :: 35 :: d ++ [59]) ++ t) []) (fun s => Some s) = Some (mk (rev (38 :: 35 :: d ++ [59]) ++ b) t [(G_hp_entity, 35 :: d ++ [59])]).
Proof.
  intros d b t H. unfold all_digits in H. apply andb_true_iff in H as [H1 H2]. unfold unescape_re. rewrite m_seq. cbn [app]. rewrite m_c1, m_grp. unfold alts, seqs.
  rewrite m_alt. match goal with |- orelse ?x _ = Some ?r => assert (E : x = Some r); [|rewrite E; reflexivity] end.
  rewrite m_seq, m_c1, m_seq. rewrite <- app_assoc. cbn [app]. apply plus_take; [destruct d; [discriminate|congruence]|exact H2|reflexivity|].
  unfold ROpt. rewrite m_alt, m_c1. cbn [bef rest caps orelse]. f_equal. f_equal.
  - cbn [rev]. rewrite rev_app_distr. cbn [rev app]. rewrite <- !app_assoc. reflexivity.
  - f_equal. f_equal. change (35 :: d ++ 59 :: t) with (35 :: d ++ [59] ++ t). rewrite app_assoc. apply (firstn_app_exact (35 :: d ++ [59])).
Qed.
Lemma unesc_hex : forall x d b t, x = 120 \/ x = 88 -> all_digits hexadecimal d = true ->
  m unescape_re (mk b ((38 :: 35 :: x :: d ++ [59]) ++ t) []) (fun s => Some s) = Some (mk (rev (38 :: 35 :: x :: d ++ [59]) ++ b) t [(G_hp_entity, 35 :: x :: d ++ [59])]).
Proof.
  intros x d b t X H. unfold all_digits in H. apply andb_true_iff in H as [H1 H2]. unfold unescape_re. rewrite m_seq. cbn [app]. rewrite m_c1, m_grp. unfold alts, seqs.
  rewrite m_alt, m_seq, m_c1, m_seq. rewrite plus_stop by (destruct X; subst x; reflexivity). cbn [orelse].
  rewrite m_alt. match goal with |- orelse ?x _ = Some ?r => assert (E : x = Some r); [|rewrite E; reflexivity] end.
  rewrite m_seq, m_c1, m_seq, m_chr. replace ((x =? 120) || (x =? 88)) with true by (destruct X; subst x; reflexivity). rewrite m_seq.
  rewrite <- app_assoc. cbn [app]. apply plus_take; [destruct d; [discriminate|congruence]|exact H2|reflexivity|].
  unfold ROpt. rewrite m_alt, m_c1. cbn [bef rest caps orelse]. f_equal. f_equal.
  - cbn [rev]. rewrite rev_app_distr. cbn [rev app]. rewrite <- !app_assoc. reflexivity.
  - f_equal. f_equal. change (35 :: x :: d ++ 59 :: t) with (35 :: x :: d ++ [59] ++ t). change (35 :: x :: d ++ [59] ++ t) with ((35 :: x :: d) ++ [59] ++ t). rewrite app_assoc. apply (firstn_app_exact (35 :: x :: d ++ [59])).
Qed.
Lemma name_sign_char : forall c, name_sign c = charref_name_char c.
Proof. intro c. unfold name_sign, charref_name_char. cbn [existsb]. rewrite orb_false_r, !orb_assoc. reflexivity. Qed.
Lemma name_signs : forall n, forallb name_sign n = true -> forallb charref_name_char n = true.
Proof. intro n. apply forallb_impl. intros c H. rewrite <- name_sign_char. exact H. Qed.
Lemma rstrip_none : forall p d, forallb (fun c => negb (p c)) d = true -> rstrip_by p d = d.
Proof.
  intro p. induction d as [|c d IH]; intro H; [reflexivity|]. cbn [forallb] in H. apply andb_true_iff in H as [H1 H2]. cbn [rstrip_by]. rewrite (IH H2).
  destruct d; [apply negb_true_iff in H1; rewrite H1; reflexivity|reflexivity].
Qed.
Lemma strip_semi : forall d, forallb (fun c => negb (c =? 59)) d = true -> rstrip_chars [59] (d ++ [59]) = d.
Proof.
  intros d H. unfold rstrip_chars. rewrite rstrip_app_all by reflexivity. apply rstrip_none.
  revert H. apply forallb_impl. intros c H. cbn [in_str existsb]. unfold in_str. cbn [existsb]. rewrite orb_false_r. exact H.
Qed.

(** ** values *)
Notation out := (flat_map (fun x => match x with Datatypes.inl c => [c] | inr y => replace_charref y end)).
Lemma digits_none : forall (f : N -> bool) d, (forall c, f c = true -> c <> 59) -> forallb f d = true -> forallb (fun c => negb (c =? 59)) d = true.
Proof. intros f d F. apply forallb_impl. intros c H. apply negb_true_iff, N.eqb_neq, F, H. Qed.
Lemma dec_range : forall c, dec c = true -> 48 <= c <= 57.
Proof. intros c H. unfold dec in H. apply andb_true_iff in H as [H1 H2]. apply N.leb_le in H1, H2. lia. Qed.
Lemma hexadecimal_semi : forall c, hexadecimal c = true -> c <> 59.
Proof. intros c H E. subst c. discriminate H. Qed.
Lemma digits_parts : forall f d, all_digits f d = true -> exists c r, d = c :: r /\ f c = true /\ forallb f d = true.
Proof. intros f d H. unfold all_digits in H. apply andb_true_iff in H as [H1 H2]. destruct d as [|c r]; [discriminate|]. exists c, r. split; [reflexivity|]. split; [|exact H2]. cbn [forallb] in H2. apply andb_true_iff in H2. tauto. Qed.
Lemma ref_dec : forall d, all_digits dec d = true -> replace_charref (mkm (38 :: 35 :: d ++ [59]) [(G_hp_entity, 35 :: d ++ [59])]) = coded_number (dec_value d).
Proof.
  intros d H. destruct (digits_parts _ _ H) as (c & r & E & Hc & Hd).
  unfold replace_charref. change (group0 G_hp_entity (mkm (38 :: 35 :: d ++ [59]) [(G_hp_entity, 35 :: d ++ [59])])) with (35 :: d ++ [59]). cbv iota.
  rewrite E at 1. cbn [app]. pose proof (dec_range c Hc). replace ((c =? 120) || (c =? 88)) with false by (symmetry; apply orb_false_iff; split; apply N.eqb_neq; lia).
  rewrite strip_semi; [|eapply digits_none; [|exact Hd]; intros x X; apply dec_range in X; lia]. rewrite number_ok. reflexivity.
Qed.
Lemma ref_hex : forall x d, x = 120 \/ x = 88 -> all_digits hexadecimal d = true -> replace_charref (mkm (38 :: 35 :: x :: d ++ [59]) [(G_hp_entity, 35 :: x :: d ++ [59])]) = coded_number (hex_value d).
Proof.
  intros x d X H. destruct (digits_parts _ _ H) as (c & r & E & Hc & Hd).
  unfold replace_charref. change (group0 G_hp_entity (mkm (38 :: 35 :: x :: d ++ [59]) [(G_hp_entity, 35 :: x :: d ++ [59])])) with (35 :: x :: d ++ [59]). cbv iota.
  replace ((x =? 120) || (x =? 88)) with true by (destruct X; subst x; reflexivity).
  rewrite strip_semi; [|eapply digits_none; [|exact Hd]; exact hexadecimal_semi]. rewrite int16_value, number_ok. reflexivity.
Qed.
Lemma name_not35 : forall n, forallb charref_name_char n = true -> hd 0 n <> 35.
Proof. intros [|c n] H; [discriminate|]. cbn [forallb] in H. apply andb_true_iff in H as [H _]. cbn [hd]. intro E. subst c. discriminate H. Qed.
Lemma replace_plain : forall s w, hd 0 s <> 35 -> replace_charref (mkm w [(G_hp_entity, s)]) =
  match html5 s with Some v => v | None => match longest_html5 (pred (List.length s)) s with Some v => v | None => 38 :: s end end.
Proof.
  intros s w H. unfold replace_charref. change (group0 G_hp_entity (mkm w [(G_hp_entity, s)])) with s. destruct s as [|c s]; [reflexivity|].
  destruct c as [|p]; [reflexivity|]. do 6 (destruct p as [p|p|]; try reflexivity). exfalso. apply H. reflexivity.
Qed.
Lemma ref_name : forall n x, name_means n x -> replace_charref (mkm (38 :: n ++ [59]) [(G_hp_entity, n ++ [59])]) = x.
Proof.
  intros n x H. destruct (name_meant n x H) as (H1 & H2 & H3 & H4 & _). rewrite replace_plain; [rewrite H1; reflexivity|].
  pose proof (name_not35 n H3) as K. destruct n as [|c n]; [congruence|]. exact K.
Qed.
Lemma ref_amp : forall n w, forallb charref_name_char n = true -> (forall k x, In (k, x) html5_tab -> startswith (L k) n = false) -> replace_charref (mkm w [(G_hp_entity, n)]) = 38 :: n.
Proof.
  intros n w H1 H2. pose proof (no_prefix n H2) as P. rewrite replace_plain by (apply name_not35; exact H1).
  replace (html5 n) with (@None str); [rewrite longest_none by exact P; reflexivity|]. specialize (P (List.length n)). rewrite firstn_all in P. symmetry. exact P.
Qed.
Lemma coded_scan : forall v w, coded v w -> forall b, out (scan unescape_re 0 b w) = v.
Proof.
  intros v w C. induction C as [|c v w Hc C IH|d v w Hd Hl C IH|x d v w X Hd C IH|n x v w M C IH|n v w R C IH]; intro b.
  - reflexivity.
  - rewrite scan_miss; [cbn [flat_map app]; rewrite IH; reflexivity|]. apply unesc_miss. intro E. subst c. discriminate Hc.
  - change ($ "&#" ++ d ++ $ ";" ++ w) with (38 :: 35 :: d ++ [59] ++ w). rewrite app_assoc. change (38 :: 35 :: (d ++ [59]) ++ w) with ((38 :: 35 :: d ++ [59]) ++ w).
    rewrite (resub_cons _ _ b (38 :: 35 :: d ++ [59]) w _ ltac:(discriminate) (unesc_dec d b w Hd)), IH, ref_dec by exact Hd. reflexivity.
  - change ($ "&#" ++ [x] ++ d ++ $ ";" ++ w) with (38 :: 35 :: x :: d ++ [59] ++ w). rewrite app_assoc. change (38 :: 35 :: x :: (d ++ [59]) ++ w) with ((38 :: 35 :: x :: d ++ [59]) ++ w).
    rewrite (resub_cons _ _ b (38 :: 35 :: x :: d ++ [59]) w _ ltac:(discriminate) (unesc_hex x d b w X Hd)), IH, ref_hex by assumption. reflexivity.
  - destruct (name_meant n x M) as (_ & H2 & H3 & H4 & _).
    change ($ "&" ++ n ++ $ ";" ++ w) with (38 :: n ++ [59] ++ w). rewrite app_assoc. change (38 :: (n ++ [59]) ++ w) with ((38 :: n ++ [59]) ++ w).
    rewrite (resub_cons _ _ b (38 :: n ++ [59]) w _ ltac:(discriminate) (unesc_name n b w H2 H3 H4)), IH. f_equal. exact (ref_name n x M).
  - destruct R as (R1 & _ & R2 & R3 & R4). apply name_signs in R1. destruct n as [|c n].
    + cbn [app L]. change ($ "&" ++ w) with (38 :: w). rewrite scan_miss; [cbn [flat_map app]; rewrite IH; reflexivity|].
      apply unesc_bare; (destruct w as [|y w]; [exact Logic.I|]); destruct R3 as (A & B & D); unfold stop; [rewrite <- name_sign_char; exact A|apply N.eqb_neq; intro E; exact (D eq_refl (eq_sym E))].
    + change ($ "&" ++ (c :: n) ++ w) with ((38 :: c :: n) ++ w). rewrite (resub_cons _ _ b _ _ [(G_hp_entity, c :: n)]); [|discriminate|].
      * rewrite IH, ref_amp by assumption. reflexivity.
      * apply unesc_amp; [discriminate|exact R1|exact R2| |]; (destruct w as [|y w]; [exact Logic.I|]); destruct R3 as (A & B & _); unfold stop; [rewrite <- name_sign_char; exact A|apply N.eqb_neq; congruence].
Qed.
Lemma coded_same : forall v w, coded v w -> contains [38] w = false -> w = v.
Proof.
  intros v w C. induction C as [|c v w Hc C IH|d v w Hd Hl C IH|x d v w X Hd C IH|n x v w M C IH|n v w R C IH]; intro H; [reflexivity| | | | |];
  try (exfalso; cbn [app L contains startswith] in H; rewrite N.eqb_refl in H; discriminate H).
  cbn [contains] in H. apply orb_false_iff in H as [_ H]. rewrite (IH H). reflexivity.
Qed.
Theorem unescape_coded : forall v w, coded v w -> unescape w = v.
Proof.
  intros v w C. unfold unescape. destruct (contains [38] w) eqn:E; [|apply coded_same; assumption]. unfold resub. apply coded_scan. exact C.
Qed.
Lemma coded_plain : forall v w, coded v w -> ~ In 10 w /\ ~ In 60 w /\ ~ In 62 w.
Proof.
  intros v w C.
  assert (K : forallb (fun c => negb (existsb (N.eqb c) [10; 60; 62])) w = true).
  { induction C as [|c v w Hc C IH|d v w Hd Hl C IH|x d v w X Hd C IH|n x v w M C IH|n v w R C IH]; [reflexivity| | | | |].
    - cbn [forallb]. rewrite IH, andb_true_r. apply negb_true_iff. cbn [existsb] in *. destruct (c =? 10), (c =? 38), (c =? 60), (c =? 62); cbn in *; congruence.
    - destruct (digits_parts _ _ Hd) as (_ & _ & _ & _ & H). rewrite !forallb_app, IH. cbn [forallb L andb]. rewrite ?andb_true_r. apply andb_true_iff. split; [reflexivity|].
      revert H. apply forallb_impl. intros c H. apply dec_range in H. apply negb_true_iff. cbn [existsb]. rewrite !orb_false_iff, !N.eqb_neq. repeat split; lia.
    - destruct (digits_parts _ _ Hd) as (_ & _ & _ & _ & H). rewrite !forallb_app, IH, andb_true_r. apply andb_true_iff. split; [reflexivity|].
      apply andb_true_iff. split; [destruct X; subst x; reflexivity|]. revert H. apply forallb_impl. intros c H. apply negb_true_iff. cbn [existsb].
      rewrite !orb_false_iff, !N.eqb_neq. repeat split; intro E; subst c; discriminate H.
    - destruct (name_meant n x M) as (_ & _ & H3 & _ & H5). rewrite !forallb_app, IH. cbn [forallb L andb]. rewrite ?andb_true_r. apply andb_true_iff. split; [reflexivity|].
      rewrite forallb_forall in *. intros c Hc. specialize (H3 c Hc). apply negb_true_iff. cbn [existsb]. rewrite !orb_false_iff, !N.eqb_neq.
      repeat split; intro E; subst c; try discriminate H3. exact (H5 Hc).
    - destruct R as (R1 & R0 & _). rewrite !forallb_app, IH, andb_true_r. apply andb_true_iff. split; [reflexivity|]. rewrite forallb_forall in *. intros c Hc. specialize (R1 c Hc). apply negb_true_iff. cbn [existsb].
      rewrite !orb_false_iff, !N.eqb_neq. repeat split; intro E; subst c; try discriminate R1. exact (R0 Hc). }
  rewrite forallb_forall in K. repeat split; intro H; specialize (K _ H); discriminate K.
Qed.
