(** * string2dict after dict2string *)
From Coq Require Import String List Arith NArith ZArith Bool Lia Permutation.
From Verif Require Import PyStr PyStrFacts Utils Spec4 Spec50 Spec7 NumFacts HtmlToolsFacts NumeralFacts InlineRun InlineParse.
Import ListNotations.
Open Scope N_scope.

(** ** shlex *)
Definition seen (c : char) : str := if (32 <=? c) && (c <=? 126) then [c] else json_char c.
Lemma quote_hex : forall n tok u, shlex_go (LQuote 34) tok true (hex4 n ++ u) = shlex_go (LQuote 34) (rev (hex4 n) ++ tok) true u.
Proof.
  assert (E : forall n, n < 16 -> (hex_digit n =? 34) = false /\ (hex_digit n =? 92) = false).
  { intros n Hn. unfold hex_digit. destruct (N.ltb_spec n 10); split; apply N.eqb_neq; lia. }
  intros n tok u. unfold hex4.
  assert (M : forall x, (hex_digit (x mod 16) =? 34) = false /\ (hex_digit (x mod 16) =? 92) = false) by (intro x; apply E, N.mod_lt; discriminate).
  cbn [app shlex_go rev]. rewrite !(proj1 (M _)), !(proj2 (M _)). reflexivity.
Qed.
Lemma quote_char : forall c tok q u, shlex_go (LQuote 34) tok q (json_char c ++ u) = shlex_go (LQuote 34) (rev (seen c) ++ tok) true u.
Proof.
  intros c tok q u. unfold seen. destruct ((32 <=? c) && (c <=? 126)) eqn:P.
  - unfold json_char. rewrite P. destruct (N.eqb_spec c 92) as [->|N1]; [reflexivity|]. destruct (N.eqb_spec c 34) as [->|N2]; [reflexivity|].
    cbn [app shlex_go rev]. rewrite (proj2 (N.eqb_neq c 34) N2), (proj2 (N.eqb_neq c 92) N1). reflexivity.
  - unfold json_char. rewrite P. destruct (N.eqb_spec c 92) as [->|N1]; [discriminate P|]. destruct (N.eqb_spec c 34) as [->|N2]; [discriminate P|].
    repeat match goal with |- context [if c =? ?k then _ else _] => destruct (c =? k); [reflexivity|] end.
    destruct (c <? 65536).
    + rewrite <- app_assoc. change (shlex_go (LQuote 34) tok q ([92; 117] ++ hex4 c ++ u)) with (shlex_go (LQuote 34) (117 :: 92 :: tok) true (hex4 c ++ u)).
      rewrite quote_hex, rev_app_distr, <- app_assoc. reflexivity.
    + cbv zeta. generalize (55296 + (c - 65536) / 1024 mod 1024). generalize (56320 + (c - 65536) mod 1024). intros l h. rewrite <- !app_assoc.
      change (shlex_go (LQuote 34) tok q ([92; 117] ++ hex4 h ++ [92; 117] ++ hex4 l ++ u)) with (shlex_go (LQuote 34) (117 :: 92 :: tok) true (hex4 h ++ [92; 117] ++ hex4 l ++ u)).
      rewrite quote_hex. set (k := rev (hex4 h) ++ 117 :: 92 :: tok).
      change (shlex_go (LQuote 34) k true ([92; 117] ++ hex4 l ++ u)) with (shlex_go (LQuote 34) (117 :: 92 :: k) true (hex4 l ++ u)). rewrite quote_hex. unfold k.
      rewrite !rev_app_distr, <- !app_assoc. reflexivity.
Qed.
Lemma quote_chars : forall s tok q r,
  shlex_go (LQuote 34) tok q (flat_map json_char s ++ 34 :: r) = shlex_go LWord (rev (flat_map seen s) ++ tok) true r.
Proof.
  induction s as [|c s IH]; intros tok q r; [reflexivity|]. cbn [flat_map]. rewrite <- app_assoc, quote_char, IH, rev_app_distr, <- app_assoc. reflexivity.
Qed.
Lemma seen_printable : forall s, printable s = true -> flat_map seen s = s.
Proof.
  induction s as [|c s IH]; intro H; [reflexivity|]. cbn [printable forallb] in H. apply andb_true_iff in H as [Hc H]. cbn [flat_map]. unfold seen at 1. rewrite Hc, IH by exact H. reflexivity.
Qed.
Definition bare (w : str) : bool := no_char [32; 9; 13; 10; 39; 34; 92] w.
Lemma bare_char : forall c w, bare (c :: w) = true ->
  shlex_ws c = false /\ (c =? 39) || (c =? 34) = false /\ (c =? 92) = false /\ bare w = true.
Proof.
  intros c w H. unfold bare, no_char in H. cbn [forallb existsb] in H. apply andb_true_iff in H as [H Hw].
  apply negb_true_iff in H. rewrite !orb_false_iff in H. destruct H as (H1 & H2 & H3 & H4 & H5 & H6 & H7 & _).
  unfold shlex_ws. rewrite H1, H2, H3, H4, H5, H6, H7. auto.
Qed.
Lemma word_chars : forall w tok q r, bare w = true -> shlex_go LWord tok q (w ++ r) = shlex_go LWord (rev w ++ tok) q r.
Proof.
  induction w as [|c w IH]; intros tok q r H; [reflexivity|]. destruct (bare_char _ _ H) as (H1 & H2 & H3 & H4).
  cbn [app shlex_go]. rewrite H1, H2, H3. rewrite IH by exact H4. cbn [rev]. rewrite <- app_assoc. reflexivity.
Qed.
(** the text of a value as shlex reads it *)
Definition raw_text (v : pyval) : str := match v with VStr s => flat_map seen s | _ => json_dumps v end.
Lemma show_N_bare : forall n, bare (show_N n) = true.
Proof.
  intro n. unfold bare, no_char. rewrite forallb_forall. intros c Hc. apply show_N_In in Hc.
  apply negb_true_iff, not_true_iff_false. intro E. apply existsb_exists in E as (y & Hy & E). apply N.eqb_eq in E. subst y.
  cbn in Hy. intuition lia.
Qed.
Lemma show_Z_bare : forall z, bare (show_Z z) = true.
Proof. intros [|p|p]; [reflexivity|apply show_N_bare|]. change (bare (show_Z (Z.neg p))) with (bare (show_N (Npos p))). apply show_N_bare. Qed.
Lemma value_read : forall v w r, bare w = true -> w <> [] ->
  exists q, (q || truthy (rev (w ++ raw_text v)) = true) /\
  shlex_go LWord (rev w) false (json_dumps v ++ r) = shlex_go LWord (rev (w ++ raw_text v)) q r.
Proof.
  intros v w r Hw Hn.
  assert (T : forall u, truthy (rev (w ++ u)) = true).
  { intro u. destruct w; [contradiction|]. cbn [app rev]. destruct (rev (_ ++ u)); reflexivity. }
  assert (B : forall u, bare u = true -> exists q, (q || truthy (rev (w ++ u)) = true) /\ shlex_go LWord (rev w) false (u ++ r) = shlex_go LWord (rev (w ++ u)) q r).
  { intros u Hu. exists false. split; [apply T|]. rewrite word_chars by exact Hu. rewrite rev_app_distr. reflexivity. }
  destruct v as [s|z|b|].
  - exists true. split; [reflexivity|]. cbn [json_dumps raw_text]. unfold json_str. rewrite <- !app_assoc. cbn [app]. cbn [shlex_go]. cbn [shlex_ws N.eqb Pos.eqb orb].
    change (34 =? 34) with true. rewrite quote_chars. rewrite rev_app_distr. reflexivity.
  - apply B. apply show_Z_bare.
  - apply B. destruct b; reflexivity.
  - apply B. reflexivity.
Qed.
Definition item_text (kv : str * pyval) : str := fst kv ++ [61] ++ json_dumps (snd kv).
Definition item_raw (kv : str * pyval) : str := fst kv ++ [61] ++ raw_text (snd kv).
Definition readable_item (kv : str * pyval) : Prop :=
  plain_key (fst kv) = true.
Lemma key_bare : forall k, plain_key k = true -> bare (k ++ [61]) = true.
Proof.
  intros k H. unfold bare, no_char. rewrite forallb_app. apply andb_true_iff. split; [|reflexivity].
  apply (no_char_incl [32; 9; 13; 10; 39; 34; 92; 61]); [|exact H]. intros y Hy. cbn in *. intuition.
Qed.
Lemma item_read : forall kv r, readable_item kv -> exists q, (q || truthy (rev (item_raw kv)) = true) /\
  shlex_go LSpace [] false (item_text kv ++ r) = shlex_go LWord (rev (item_raw kv)) q r.
Proof.
  intros [k v] r Hk. unfold readable_item in Hk. cbn [fst snd] in *. pose proof (key_bare k Hk) as B. unfold item_text, item_raw. cbn [fst snd].
  destruct (value_read v (k ++ [61]) r B ltac:(destruct k; discriminate)) as (q & T & E). exists q. rewrite !app_assoc. split; [exact T|]. rewrite <- E. clear E T.
  rewrite <- !app_assoc. destruct (k ++ [61]) as [|c w] eqn:K; [destruct k; discriminate|].
  replace (k ++ [61] ++ json_dumps v ++ r) with ((c :: w) ++ json_dumps v ++ r) by (rewrite <- K, <- app_assoc; reflexivity).
  destruct (bare_char _ _ B) as (H1 & H2 & H3 & H4). cbn [app shlex_go]. rewrite H1, H3, H2. rewrite word_chars by exact H4. reflexivity.
Qed.
(** [t] is read as one token with the text [w] *)
Definition token (t w : str) : Prop := forall r, exists q, (q || truthy (rev w) = true) /\
  shlex_go LSpace [] false (t ++ r) = shlex_go LWord (rev w) q r.
Lemma tokens_read : forall (A : Type) (f g : A -> str) l, Forall (fun x => token (f x) (g x)) l -> shlex_split (join [32] (map f l)) = Some (map g l).
Proof.
  intros A f g l H. unfold shlex_split. induction l as [|kv l IH]; [reflexivity|]. inversion H as [|? ? H1 H2]; subst. destruct l as [|kv2 l].
  - cbn [map join]. rewrite <- (app_nil_r (f kv)). destruct (H1 []) as (q & T & ->). cbn [shlex_go]. rewrite T, rev_involutive. reflexivity.
  - specialize (IH H2). cbn [map] in *. change (join [32] (f kv :: f kv2 :: map f l)) with (f kv ++ [32] ++ join [32] (f kv2 :: map f l)).
    destruct (H1 ([32] ++ join [32] (f kv2 :: map f l))) as (q & T & ->). cbn [app shlex_go]. change (shlex_ws 32) with true. cbv iota.
    rewrite T, IH, rev_involutive. reflexivity.
Qed.
Lemma items_read : forall l, Forall readable_item l -> shlex_split (join [32] (map item_text l)) = Some (map item_raw l).
Proof.
  intros l H. apply tokens_read. eapply Forall_impl; [|exact H]. intros kv Hk r. apply item_read. exact Hk.
Qed.

(** ** dictionaries *)
Lemma dict_get_set : forall d k v k', dict_get k' (dict_set k v d) = if str_eqb k' k then Some v else dict_get k' d.
Proof.
  induction d as [|[k0 v0] d IH]; intros k v k'; cbn [dict_set dict_get].
  - destruct (str_eqb k' k); reflexivity.
  - destruct (str_eqb k k0) eqn:E.
    + apply str_eqb_eq in E. subst k0. cbn [dict_get]. destruct (str_eqb k' k); reflexivity.
    + cbn [dict_get]. rewrite IH. destruct (str_eqb k' k0) eqn:E2; [|reflexivity]. apply str_eqb_eq in E2. subst k'.
      destruct (str_eqb k0 k) eqn:E3; [|reflexivity]. apply str_eqb_eq in E3. subst. rewrite (proj2 (str_eqb_eq k k) eq_refl) in E. discriminate.
Qed.
Definition put_all (l : pydict) (d : pydict) : pydict := fold_left (fun d kv => dict_set (fst kv) (snd kv) d) l d.
Lemma put_all_get : forall l d k, NoDup (map fst l) -> dict_get k (put_all l d) = match dict_get k l with Some v => Some v | None => dict_get k d end.
Proof.
  induction l as [|[k0 v0] l IH]; intros d k H; [reflexivity|]. cbn [map fst] in H. inversion H as [|? ? Hn Hd]; subst.
  unfold put_all in *. cbn [fold_left fst snd]. rewrite IH by exact Hd. cbn [dict_get]. rewrite dict_get_set.
  destruct (str_eqb k k0) eqn:E; [|reflexivity]. apply str_eqb_eq in E. subst k0.
  assert (G : dict_get k l = None); [|rewrite G; reflexivity].
  clear - Hn. induction l as [|[k1 v1] l IH]; [reflexivity|]. cbn [dict_get map fst] in *. destruct (str_eqb k k1) eqn:E.
  - apply str_eqb_eq in E. subst. exfalso. apply Hn. left. reflexivity.
  - apply IH. intro. apply Hn. right. assumption.
Qed.
Lemma dict_get_In : forall d k v, NoDup (map fst d) -> (dict_get k d = Some v <-> In (k, v) d).
Proof.
  induction d as [|[k0 v0] d IH]; intros k v H; [split; [discriminate|intros []]|]. cbn [map fst] in H. inversion H as [|? ? Hn Hd]; subst. cbn [dict_get].
  destruct (str_eqb k k0) eqn:E.
  - apply str_eqb_eq in E. subst k0. split; [intro G; injection G as ->; left; reflexivity|]. intros [G|G]; [congruence|].
    exfalso. apply Hn. apply in_map_iff. exists (k, v). auto.
  - rewrite IH by exact Hd. split; [right; assumption|]. intros [G|G]; [|exact G]. injection G as <- <-. rewrite (proj2 (str_eqb_eq k0 k0) eq_refl) in E. discriminate.
Qed.
Lemma ins_perm : forall e l, Permutation (ins_item e l) (e :: l).
Proof.
  induction l as [|h l IH]; [reflexivity|]. cbn [ins_item]. destruct (str_leb (fst e) (fst h)); [reflexivity|].
  rewrite IH. apply perm_swap.
Qed.
Lemma sort_perm : forall d, Permutation (sort_items d) d.
Proof. induction d as [|e d IH]; [reflexivity|]. cbn [sort_items fold_right]. rewrite ins_perm. apply perm_skip. exact IH. Qed.
Lemma perm_get : forall a b, Permutation a b -> NoDup (map fst a) -> same_dict a b.
Proof.
  intros a b P H k. assert (Hb : NoDup (map fst b)) by (eapply Permutation_NoDup; [apply Permutation_map; exact P|exact H]).
  destruct (dict_get k a) as [v|] eqn:E.
  - symmetry. apply dict_get_In; [exact Hb|]. eapply Permutation_in; [exact P|]. apply dict_get_In; assumption.
  - destruct (dict_get k b) as [v|] eqn:E2; [|reflexivity]. exfalso. apply dict_get_In in E2; [|exact Hb].
    apply (Permutation_in _ (Permutation_sym P)) in E2. apply dict_get_In in E2; [|exact H]. congruence.
Qed.

Lemma parts_read : forall l d, Forall (fun kv => plain_key (fst kv) = true) l ->
  s2d_parts (map item_raw l) d = Some (put_all (map (fun kv => (fst kv, conv_value (raw_text (snd kv)))) l) d).
Proof.
  induction l as [|[k v] l IH]; intros d H; [reflexivity|]. inversion H as [|? ? H1 H2]; subst. cbn [map s2d_parts]. unfold item_raw at 1. cbn [fst snd app] in *.
  rewrite split1_at; [rewrite IH by exact H2; reflexivity|]. intro Hi. apply (no_char_In _ _ _ H1 Hi). cbn; auto 10.
Qed.
(** what string2dict gives for any dict with plain keys *)
Lemma round : forall d, NoDup (map fst d) -> Forall readable_item d ->
  exists d', string2dict (dict2string d) = Some d' /\ same_dict d' (map (fun kv => (fst kv, conv_value (raw_text (snd kv)))) d).
Proof.
  intros d Hd Hr. pose proof (sort_perm d) as P.
  assert (Hs : Forall readable_item (sort_items d)) by (rewrite Forall_forall in *; intros x Hx; apply Hr; eapply Permutation_in; [exact P|exact Hx]).
  unfold string2dict, dict2string. change (map (fun kv : str * pyval => fst kv ++ [61] ++ json_dumps (snd kv)) (sort_items d)) with (map item_text (sort_items d)).
  rewrite items_read by exact Hs. rewrite parts_read by (rewrite Forall_forall in *; intros x Hx; apply Hs; exact Hx).
  eexists. split; [reflexivity|]. intro k. rewrite put_all_get.
  - cbn [dict_get]. set (f := fun kv : str * pyval => (fst kv, conv_value (raw_text (snd kv)))).
    assert (Q : Permutation (map f (sort_items d)) (map f d)) by (apply Permutation_map; exact P).
    rewrite (perm_get _ _ Q).
    + destruct (dict_get k (map f d)); reflexivity.
    + rewrite map_map. unfold f. cbn [fst]. eapply Permutation_NoDup; [|exact Hd]. apply Permutation_map, Permutation_sym, P.
  - rewrite map_map. cbn [fst]. eapply Permutation_NoDup; [|exact Hd]. apply Permutation_map, Permutation_sym, P.
Qed.
Lemma py_int_show_Z : forall z, N.of_nat (List.length (show_N (Z.abs_N z))) <= 4300 -> py_int (show_Z z) = Some z.
Proof.
  intros z H. destruct z as [|p|p].
  - reflexivity.
  - change (show_Z (Z.pos p)) with (show_N (Npos p)). rewrite py_int_show by exact H. reflexivity.
  - change (show_Z (Z.neg p)) with (45 :: show_N (Npos p)). cbn [Z.abs_N] in H. pose proof (py_int_show (Npos p) H) as E.
    unfold py_int in *.
    assert (S1 : strip_by int_space (show_N (N.pos p)) = show_N (N.pos p)).
    { apply strip_by_clean. pose proof (show_N_space (Npos p)) as D. rewrite forallb_forall in *. intros c Hc. specialize (D c Hc). unfold int_space. apply negb_true_iff in D. rewrite D. reflexivity. }
    assert (S2 : strip_by int_space (45 :: show_N (N.pos p)) = 45 :: show_N (N.pos p)).
    { apply strip_by_clean. cbn [forallb]. apply andb_true_iff. split; [reflexivity|]. pose proof (show_N_space (Npos p)) as D. rewrite forallb_forall in *. intros c Hc. specialize (D c Hc). unfold int_space. apply negb_true_iff in D. rewrite D. reflexivity. }
    rewrite S1 in E. rewrite S2. cbv iota beta.
    assert (F : forall neg, match int_digits true 0 0 (show_N (N.pos p)) with
       | Some (n, cnt) => if cnt <=? int_max_digits then Some (if neg : bool then (- Z.of_N n)%Z else Z.of_N n) else None | None => None end =
       Some (if neg then Z.neg p else Z.pos p)).
    { destruct (show_N (N.pos p)) as [|c w] eqn:K; [exfalso; exact (show_N_ne _ K)|].
      assert (Hc : 48 <= c <= 57) by (apply (show_N_In (N.pos p)); rewrite K; left; reflexivity).
      assert (E' : match int_digits true 0 0 (c :: w) with Some (n, cnt) => if cnt <=? int_max_digits then Some (Z.of_N n) else None | None => None end = Some (Z.pos p)).
      { destruct c as [|q]; [lia|]. do 6 (destruct q as [q|q|]; try (exact E)); lia. }
      intro neg. destruct (int_digits true 0 0 (c :: w)) as [[n cnt]|]; [|discriminate]. destruct (cnt <=? int_max_digits); [|discriminate].
      injection E' as E'. destruct neg; [|f_equal; exact E']. rewrite E'. reflexivity. }
    exact (F true).
Qed.
Lemma show_Z_keyword : forall z, str_eqb (show_Z z) ($ "True") = false /\ str_eqb (show_Z z) ($ "False") = false /\ str_eqb (show_Z z) ($ "None") = false.
Proof.
  assert (G : forall c w, 48 <= c <= 57 \/ c = 45 -> str_eqb (c :: w) ($ "True") = false /\ str_eqb (c :: w) ($ "False") = false /\ str_eqb (c :: w) ($ "None") = false).
  { intros c w H. repeat split; apply str_eqb_neq; intro E; injection E as E _; lia. }
  intros [|p|p]; [apply G; lia| |].
  - change (show_Z (Z.pos p)) with (show_N (Npos p)). destruct (show_N (N.pos p)) as [|c w] eqn:K; [exfalso; exact (show_N_ne _ K)|]. apply G. left. apply (show_N_In (N.pos p)). rewrite K. left. reflexivity.
  - apply G. auto.
Qed.
Lemma show_Z_strip_quotes : forall z, strip_chars [39; 34] (show_Z z) = show_Z z.
Proof.
  intro z. apply strip_by_clean. rewrite forallb_forall. intros c Hc. pose proof (show_Z_bare z) as B.
  apply negb_true_iff, not_true_iff_false. intro E. apply (no_char_In _ _ _ B Hc). unfold in_str in E. apply existsb_exists in E as (y & Hy & E). apply N.eqb_eq in E. subst y.
  cbn in *. intuition.
Qed.
Lemma conv_plain : forall v, plain_value v -> conv_value (raw_text v) = v.
Proof.
  intros [s|z|b|] H; [| |destruct H|destruct H].
  - destruct H as (H0 & H1 & H2). cbn [raw_text]. rewrite seen_printable by exact H0. unfold conv_value. unfold keyword in H1. cbn [existsb] in H1. rewrite !orb_false_iff in H1. destruct H1 as (A & B & C & _).
    rewrite A, B, C. apply no_number in H2. rewrite H2. reflexivity.
  - change (raw_text (VInt z)) with (show_Z z). unfold conv_value. destruct (show_Z_keyword z) as (A & B & C). rewrite A, B, C. rewrite show_Z_strip_quotes.
    cbn [plain_value] in H. rewrite py_int_show_Z by exact H. reflexivity.
Qed.
Lemma lemma_C23 : forall d, NoDup (map fst d) -> Forall (fun kv => plain_key (fst kv) = true /\ plain_value (snd kv)) d ->
  exists d', string2dict (dict2string d) = Some d' /\ same_dict d' d.
Proof.
  intros d Hd H. destruct (round d Hd) as (d' & E & S).
  - rewrite Forall_forall in *. intros [k v] Hx. exact (proj1 (H _ Hx)).
  - exists d'. split; [exact E|]. intro k. rewrite S. f_equal. rewrite <- (map_id d) at 2. apply map_ext_in. intros [k0 v0] Hx. rewrite Forall_forall in H. destruct (H _ Hx) as [_ H2].
    cbn [fst snd] in *. rewrite conv_plain by exact H2. reflexivity.
Qed.

(** ** arguments as written *)
Lemma in_quotes : forall q s tok b r, (q = 34 /\ no_char [34; 92] s = true) \/ (q = 39 /\ no_char [39] s = true) ->
  shlex_go (LQuote q) tok b (s ++ q :: r) = shlex_go LWord (rev s ++ tok) true r.
Proof.
  intros q s. induction s as [|c s IH]; intros tok b r H.
  - cbn [app shlex_go]. rewrite N.eqb_refl. reflexivity.
  - assert (G : (c =? q) = false /\ (c =? 92) && (q =? 34) = false /\ ((q = 34 /\ no_char [34; 92] s = true) \/ (q = 39 /\ no_char [39] s = true))).
    { destruct H as [[-> H]|[-> H]]; unfold no_char in *; cbn [forallb existsb] in H; apply andb_true_iff in H as [H Hs]; apply negb_true_iff in H; rewrite !orb_false_iff in H; destruct H as [H1 H2].
      - destruct H2 as [H2 _]. rewrite H1, H2. auto.
      - rewrite H1. rewrite andb_false_r. auto. }
    destruct G as (G1 & G2 & G3). cbn [app shlex_go]. rewrite G1, G2. rewrite IH by exact G3. cbn [rev]. rewrite <- app_assoc. reflexivity.
Qed.
Definition arg_raw (a : arg) : str := a_key a ++ [61] ++ a_val a.
Lemma arg_read : forall a, arg_ok a = true -> token (arg_text a) (arg_raw a).
Proof.
  intros [k q v] H r. unfold arg_ok, arg_text, arg_raw in *. cbn [a_key a_quoting a_val] in *. apply andb_true_iff in H as [Hk Hv].
  pose proof (key_bare k Hk) as B.
  assert (St : forall u, shlex_go LSpace [] false ((k ++ [61]) ++ u) = shlex_go LWord (rev (k ++ [61])) false u).
  { intro u. destruct (k ++ [61]) as [|c w] eqn:K; [destruct k; discriminate|]. destruct (bare_char _ _ B) as (H1 & H2 & H3 & H4).
    cbn [app shlex_go]. rewrite H1, H3, H2. rewrite word_chars by exact H4. reflexivity. }
  replace ((k ++ [61] ++ match q with Bare => v | Double => [34] ++ v ++ [34] | Single => [39] ++ v ++ [39] end) ++ r)
    with ((k ++ [61]) ++ (match q with Bare => v | Double => [34] ++ v ++ [34] | Single => [39] ++ v ++ [39] end) ++ r) by (rewrite <- !app_assoc; reflexivity).
  rewrite St. replace (k ++ [61] ++ v) with ((k ++ [61]) ++ v) by (rewrite <- !app_assoc; reflexivity). rewrite rev_app_distr. destruct q.
  - exists false. split; [|apply word_chars; exact Hv]. rewrite <- rev_app_distr. destruct k; cbn [app rev]; match goal with |- context [truthy (?x ++ [?c])] => destruct x; reflexivity end.
  - exists true. split; [reflexivity|]. rewrite <- !app_assoc. cbn [app]. cbn [shlex_go]. change (shlex_ws 34) with false. change (34 =? 92) with false. change ((34 =? 39) || (34 =? 34)) with true. cbv iota.
    apply in_quotes. auto.
  - exists true. split; [reflexivity|]. rewrite <- !app_assoc. cbn [app]. cbn [shlex_go]. change (shlex_ws 39) with false. change (39 =? 92) with false. change ((39 =? 39) || (39 =? 34)) with true. cbv iota.
    apply in_quotes. auto.
Qed.
Lemma args_parts : forall l d, forallb arg_ok l = true -> exists d', s2d_parts (map arg_raw l) d = Some d' /\
  forall k, dict_get k d' = match arg_value k l with Some v => Some (conv_value v) | None => dict_get k d end.
Proof.
  induction l as [|a l IH]; intros d H; [exists d; split; reflexivity|]. cbn [forallb] in H. apply andb_true_iff in H as [Ha Hl].
  cbn [map s2d_parts]. unfold arg_raw at 1. cbn [app]. rewrite split1_at.
  - destruct (IH (dict_set (a_key a) (conv_value (a_val a)) d) Hl) as (d' & E & G). exists d'. split; [exact E|]. intro k. rewrite G, dict_get_set. cbn [arg_value].
    destruct (arg_value k l); [reflexivity|]. destruct (str_eqb k (a_key a)); reflexivity.
  - intro Hi. unfold arg_ok in Ha. apply andb_true_iff in Ha as [Hk _]. apply (no_char_In _ _ _ Hk Hi). cbn; auto 10.
Qed.
Lemma conv_reads : forall v, reads_as v (conv_value v).
Proof.
  intro v. unfold conv_value. destruct (str_eqb v ($ "True")) eqn:A; [apply str_eqb_eq in A; subst; constructor|].
  destruct (str_eqb v ($ "False")) eqn:B; [apply str_eqb_eq in B; subst; constructor|].
  destruct (str_eqb v ($ "None")) eqn:C; [apply str_eqb_eq in C; subst; constructor|].
  assert (K : keyword v = false) by (unfold keyword; cbn [existsb]; rewrite A, B, C; reflexivity).
  destruct (py_int (strip_chars [39; 34] v)) eqn:E; [apply reads_int; [exact K|apply number_iff; exact E]|apply reads_text; [exact K|exact (proj2 (no_number _) E)]].
Qed.
Lemma lemma_C58 : forall l, forallb arg_ok l = true -> exists d, string2dict (args_text l) = Some d /\
  forall k, match arg_value k l with
            | Some v => exists p, dict_get k d = Some p /\ reads_as v p
            | None => dict_get k d = None
            end.
Proof.
  intros l H. unfold string2dict, args_text. rewrite (tokens_read arg arg_text arg_raw).
  - destruct (args_parts l [] H) as (d & E & G). exists d. split; [exact E|]. intro k. rewrite G. destruct (arg_value k l) as [v|]; [|reflexivity]. exists (conv_value v). split; [reflexivity|apply conv_reads].
  - rewrite forallb_forall in H. apply Forall_forall. intros a Ha. apply arg_read, H, Ha.
Qed.

(** ** texts that are no numbers *)
Lemma letter_number : forall s, has_letter s = true -> not_a_number s.
Proof.
  intros s H. unfold has_letter in H. apply existsb_exists in H as (c & Hc & L). unfold not_a_number. apply (proj2 (no_number _)). apply (py_int_letter c).
  { unfold letter in L. unfold ascii_letter. apply orb_true_iff in L as [L|L]; apply andb_true_iff in L as [H1 H2]; apply N.leb_le in H1, H2; lia. }
  apply strip_by_In; [exact Hc|]. apply not_true_iff_false. intro E. unfold in_str in E. apply existsb_exists in E as (y & Hy & E). apply N.eqb_eq in E. subst y.
  cbn in Hy. destruct Hy as [<-|[<-|[]]]; discriminate L.
Qed.
Lemma lemma_C24 : forall k b, plain_key k = true ->
  (exists d, string2dict (dict2string [(k, VBool b)]) = Some d /\ same_dict d [(k, VStr (if b then $ "true" else $ "false"))]) /\
  (exists d, string2dict (dict2string [(k, VNone)]) = Some d /\ same_dict d [(k, VStr ($ "null"))]).
Proof.
  intros k b Hk. split.
  - destruct (round [(k, VBool b)]) as (d & E & S); [constructor; [intros []|constructor]|repeat constructor; exact Hk|]. exists d. split; [exact E|]. destruct b; exact S.
  - destruct (round [(k, VNone)]) as (d & E & S); [constructor; [intros []|constructor]|repeat constructor; exact Hk|]. exists d. split; [exact E|]. exact S.
Qed.
Lemma lemma_C24_numbers : forall k s z, plain_key k = true -> printable s = true -> keyword s = false -> number (strip_chars [39; 34] s) z ->
  exists d, string2dict (dict2string [(k, VStr s)]) = Some d /\ same_dict d [(k, VInt z)].
Proof.
  intros k s z Hk Hp Hw Hz. apply number_iff in Hz. destruct (round [(k, VStr s)]) as (d & E & S); [constructor; [intros []|constructor]|repeat constructor; assumption|].
  exists d. split; [exact E|]. cbn [map fst snd raw_text] in S. rewrite seen_printable in S by exact Hp. unfold conv_value in S. unfold keyword in Hw. cbn [existsb] in Hw. rewrite !orb_false_iff in Hw. destruct Hw as (A & B & C & _).
  rewrite A, B, C, Hz in S. exact S.
Qed.

(** ** any dict with plain keys *)
Lemma hex_lower : forall n, n < 16 -> lower_hex (hex_digit n) n.
Proof.
  intros n H. assert (I : In n [0; 1; 2; 3; 4; 5; 6; 7; 8; 9; 10; 11; 12; 13; 14; 15]) by (cbn [In]; lia). cbn [In] in I.
  unfold lower_hex. repeat (destruct I as [<-|I]; [vm_compute; tauto|]). destruct I.
Qed.
Lemma hex4_four : forall n, n < 65536 -> four_hex (hex4 n) n.
Proof.
  intros n H. unfold hex4. do 4 eexists. exists (n / 4096 mod 16), (n / 256 mod 16), (n / 16 mod 16), (n mod 16). split; [reflexivity|].
  do 4 (split; [apply hex_lower, N.mod_lt; discriminate|]).
  assert (E1 : n = 16 * (n / 16) + n mod 16) by (apply N.div_mod; discriminate).
  assert (E2 : n / 16 = 16 * (n / 16 / 16) + n / 16 mod 16) by (apply N.div_mod; discriminate).
  assert (E3 : n / 16 / 16 = 16 * (n / 16 / 16 / 16) + n / 16 / 16 mod 16) by (apply N.div_mod; discriminate).
  rewrite !N.div_div in * by discriminate. change (16 * 16) with 256 in *. change (256 * 16) with 4096 in *. change (16 * 256) with 4096 in *.
  assert (E4 : n / 4096 < 16) by (apply N.div_lt_upper_bound; [discriminate|exact H]). rewrite (N.mod_small (n / 4096)) by exact E4. lia.
Qed.
Lemma seen_back : forall c, c < 1114112 -> comes_back c (seen c).
Proof.
  intros c U. unfold seen. destruct ((32 <=? c) && (c <=? 126)) eqn:P.
  - apply andb_true_iff in P as [P1 P2]. apply N.leb_le in P1, P2. apply cb_printable. lia.
  - unfold json_char. rewrite P. rewrite andb_false_iff, !N.leb_gt in P. destruct (N.eqb_spec c 92) as [->|N1]; [lia|]. destruct (N.eqb_spec c 34) as [->|N2]; [lia|].
    repeat match goal with |- context [if c =? ?k then _ else _] => destruct (N.eqb_spec c k) as [->|?]; [apply cb_short; vm_compute; tauto|] end.
    destruct (N.ltb_spec c 65536) as [L1|L1].
    + apply (cb_code c (hex4 c)); [lia| |apply hex4_four; exact L1]. cbn [short_escapes map fst In]. intuition congruence.
    + cbv zeta. assert (D : (c - 65536) / 1024 < 1024) by (apply N.div_lt_upper_bound; [discriminate|lia]). rewrite (N.mod_small _ _ D).
      assert (M : (c - 65536) mod 1024 < 1024) by (apply N.mod_lt; discriminate).
      assert (E : c - 65536 = 1024 * ((c - 65536) / 1024) + (c - 65536) mod 1024) by (apply N.div_mod; discriminate).
      revert D M E. generalize ((c - 65536) / 1024) ((c - 65536) mod 1024). intros x y D M E.
      apply (cb_pair c (55296 + x) (56320 + y)); try apply hex4_four; lia.
Qed.
Lemma text_seen : forall s, (forall c, In c s -> c < 1114112) -> text_back s (flat_map seen s).
Proof.
  induction s as [|c s IH]; intro H; [constructor|]. cbn [flat_map]. constructor; [apply seen_back, H; left; reflexivity|]. apply IH. intros x Hx. apply H. right. exact Hx.
Qed.
Lemma value_seen : forall v, writable v -> value_back v (raw_text v).
Proof.
  intros [s|z|[|]|] H; cbn [raw_text json_dumps].
  - constructor. apply text_seen. exact H.
  - constructor.
  - exact (vb_bool true).
  - exact (vb_bool false).
  - constructor.
Qed.
Lemma lemma_C24_values : forall d, NoDup (map fst d) -> Forall (fun kv => plain_key (fst kv) = true /\ writable (snd kv)) d ->
  exists d', string2dict (dict2string d) = Some d' /\
  forall k, match dict_get k d with
            | Some v => exists t p, value_back v t /\ reads_as t p /\ dict_get k d' = Some p
            | None => dict_get k d' = None
            end.
Proof.
  intros d Hd H. destruct (round d Hd) as (d' & E & S).
  - eapply Forall_impl; [|exact H]. intros kv Hk. exact (proj1 Hk).
  - exists d'. split; [exact E|]. intro k. rewrite (S k). clear E S d'.
    assert (G : dict_get k (map (fun kv => (fst kv, conv_value (raw_text (snd kv)))) d) = option_map (fun v => conv_value (raw_text v)) (dict_get k d)).
    { clear. induction d as [|[k0 v0] d IH]; [reflexivity|]. cbn [map dict_get fst snd]. destruct (str_eqb k k0); [reflexivity|exact IH]. }
    rewrite G. destruct (dict_get k d) as [v|] eqn:K; [|reflexivity]. apply dict_get_In in K; [|exact Hd]. rewrite Forall_forall in H. destruct (H _ K) as [_ W].
    exists (raw_text v), (conv_value (raw_text v)). split; [apply value_seen; exact W|]. split; [apply conv_reads|reflexivity].
Qed.
