(** * How html2markdown quotes addresses *)
From Coq Require Import String List Arith NArith ZArith Bool Lia.
From Verif Require Import PyStr PyStrFacts Utils Res HtmlTools HtmlToolsFacts UrlQuote NumFacts Spec17.
From Verif Require Spec8 Cmdline CmdlineFacts TokRun Safety TreeFacts.
Import ListNotations.
Open Scope N_scope.

(** ** percent encoding *)
Lemma safe_unreserved : forall c, is_url_safe c = unreserved c.
Proof.
  intro c. unfold is_url_safe, unreserved, is_alpha, is_dec, small, capital, digit. cbn [L existsb].
  change (existsb (N.eqb c) ($ "-._~/")) with ((c =? 45) || ((c =? 46) || ((c =? 95) || ((c =? 126) || ((c =? 47) || false))))).
  destruct ((97 <=? c) && (c <=? 122)), ((65 <=? c) && (c <=? 90)), ((48 <=? c) && (c <=? 57)), (c =? 95), (c =? 46), (c =? 45), (c =? 126), (c =? 47); reflexivity.
Qed.
Lemma hex_up : forall n, n < 16 -> hex_upper n = hex_digit n.
Proof.
  intros n H. assert (K : forallb (fun k => hex_upper (N.of_nat k) =? hex_digit (N.of_nat k)) (seq 0 16) = true) by reflexivity.
  rewrite forallb_forall in K. specialize (K (N.to_nat n)). rewrite N2Nat.id in K. apply N.eqb_eq. apply K. apply in_seq. lia.
Qed.
Lemma octets_utf8 : forall c, character c = true -> utf8 c = Some (octets c).
Proof.
  intros c H. unfold character in H. apply andb_true_iff in H as [_ H]. apply negb_true_iff in H. unfold utf8, octets. rewrite H.
  destruct (c <? 128), (c <? 2048), (c <? 65536); reflexivity.
Qed.
Lemma octet_small : forall c b, character c = true -> In b (octets c) -> b < 256.
Proof.
  intros c b H I. unfold character in H. apply andb_true_iff in H as [H _]. apply N.ltb_lt in H. unfold octets in I.
  assert (M : forall x, x mod 64 < 64) by (intro; apply N.mod_lt; discriminate).
  destruct (N.ltb_spec c 128); [destruct I as [<-|[]]; lia|]. destruct (N.ltb_spec c 2048).
  { assert (c / 64 < 32) by (apply N.div_lt_upper_bound; lia). pose proof (M c). destruct I as [<-|[<-|[]]]; lia. }
  destruct (N.ltb_spec c 65536).
  { assert (c / 4096 < 16) by (apply N.div_lt_upper_bound; lia). pose proof (M c). pose proof (M (c / 64)). destruct I as [<-|[<-|[<-|[]]]]; lia. }
  assert (c / 262144 < 5) by (apply N.div_lt_upper_bound; lia). pose proof (M c). pose proof (M (c / 64)). pose proof (M (c / 4096)). destruct I as [<-|[<-|[<-|[<-|[]]]]]; lia.
Qed.
Lemma octet_high : forall c b, 128 <= c -> In b (octets c) -> 128 <= b.
Proof.
  intros c b H I. assert (K : forall x y, 128 <= x -> 128 <= x + y) by (intros; lia). unfold octets in I. destruct (N.ltb_spec c 128) as [L|_]; [lia|].
  destruct (c <? 2048); [|destruct (c <? 65536)]; cbn [In] in I; repeat (destruct I as [<-|I]; [apply K; discriminate|]); destruct I.
Qed.
Lemma unreserved_low : forall c, unreserved c = true -> c < 128.
Proof.
  intros c H. unfold unreserved, small, capital, digit in H. change (existsb (N.eqb c) ($ "-._~/")) with ((c =? 45) || ((c =? 46) || ((c =? 95) || ((c =? 126) || ((c =? 47) || false))))) in H.
  rewrite !orb_true_iff, !andb_true_iff, !N.leb_le, !N.eqb_eq in H. intuition; try lia; discriminate.
Qed.
Lemma quote_char : forall c, character c = true -> flat_map quote_byte (octets c) = percent_char c.
Proof.
  intros c H. unfold percent_char. destruct (unreserved c) eqn:U.
  - pose proof (unreserved_low c U) as Lc. unfold octets. apply N.ltb_lt in Lc. rewrite Lc. cbn [flat_map]. unfold quote_byte. rewrite safe_unreserved, U. reflexivity.
  - assert (K : forall b, In b (octets c) -> quote_byte b = [37; hex_digit (b / 16); hex_digit (b mod 16)]).
    { intros b I. assert (S : unreserved b = false).
      { destruct (unreserved b) eqn:E; [|reflexivity]. pose proof (unreserved_low b E). destruct (N.ltb_spec c 128) as [Lc|Hc]; [|pose proof (octet_high c b Hc I); lia].
        unfold octets in I. apply N.ltb_lt in Lc. rewrite Lc in I. destruct I as [<-|[]]. congruence. }
      unfold quote_byte. rewrite safe_unreserved, S. pose proof (octet_small c b H I). rewrite !hex_up; [reflexivity|apply N.mod_lt; discriminate|apply N.div_lt_upper_bound; lia]. }
    revert K. generalize (octets c). induction l as [|b l IH]; intro K; [reflexivity|]. cbn [flat_map]. rewrite K by (left; reflexivity). rewrite IH; [reflexivity|]. intros x I. apply K. right. exact I.
Qed.
Lemma quote_percent : forall p, forallb character p = true -> quote p = Ok (percent p).
Proof.
  induction p as [|c p IH]; intro H; [reflexivity|]. cbn [forallb] in H. apply andb_true_iff in H as [H1 H2]. cbn [quote]. rewrite (octets_utf8 c H1), (IH H2). cbn [bind]. unfold percent. cbn [flat_map].
  rewrite (quote_char c H1). reflexivity.
Qed.
(** and back *)
Lemma hex_back : forall b, b < 256 -> 16 * hex_number (hex_digit (b / 16)) + hex_number (hex_digit (b mod 16)) = b.
Proof.
  intros b H. assert (K : forall n, n < 16 -> hex_number (hex_digit n) = n).
  { intros n Hn. assert (K : forallb (fun k => hex_number (hex_digit (N.of_nat k)) =? N.of_nat k) (seq 0 16) = true) by reflexivity.
    rewrite forallb_forall in K. specialize (K (N.to_nat n)). rewrite N2Nat.id in K. apply N.eqb_eq. apply K. apply in_seq. lia. }
  rewrite !K; [symmetry; apply N.div_mod'|apply N.mod_lt; discriminate|apply N.div_lt_upper_bound; lia].
Qed.
Lemma unpercent_char : forall c r, character c = true -> unpercent (percent_char c ++ r) = octets c ++ unpercent r.
Proof.
  intros c r H. unfold percent_char. destruct (unreserved c) eqn:U.
  - pose proof (unreserved_low c U) as Lc. unfold octets. apply N.ltb_lt in Lc. rewrite Lc. cbn [app unpercent]. destruct (N.eqb_spec c 37); [subst c; discriminate U|reflexivity].
  - assert (K : forall b, In b (octets c) -> b < 256) by (intros b; apply octet_small; exact H). revert K. generalize (octets c). induction l as [|b l IH]; intro K; [reflexivity|].
    cbn [flat_map app unpercent]. change (37 =? 37) with true. cbv iota. rewrite hex_back by (apply K; left; reflexivity). f_equal. apply IH. intros x I. apply K. right. exact I.
Qed.
Lemma unpercent_percent : forall p, forallb character p = true -> unpercent (percent p) = flat_map octets p.
Proof.
  induction p as [|c p IH]; intro H; [reflexivity|]. cbn [forallb] in H. apply andb_true_iff in H as [H1 H2]. unfold percent. cbn [flat_map]. rewrite unpercent_char by exact H1. rewrite <- (IH H2). reflexivity.
Qed.
Lemma encode_octets : forall p, forallb character p = true -> Cmdline.utf8_encode p = Some (flat_map octets p).
Proof.
  induction p as [|c p IH]; intro H; [reflexivity|]. cbn [forallb] in H. apply andb_true_iff in H as [H1 H2]. cbn [Cmdline.utf8_encode flat_map]. rewrite (octets_utf8 c H1), (IH H2). reflexivity.
Qed.
Lemma percent_back : forall p, forallb character p = true -> Cmdline.utf8_decode (unpercent (percent p)) = Some p.
Proof.
  intros p H. rewrite (unpercent_percent p H). destruct (CmdlineFacts.lemma_utf8 p H) as (b & E & D). rewrite (encode_octets p H) in E. injection E as <-.
  specialize (D []). rewrite app_nil_r in D. rewrite D. cbn. rewrite app_nil_r. reflexivity.
Qed.

(** ** taking an address apart *)
Lemma all_but_in : forall no s c, all_but no s = true -> In c no -> ~ In c s.
Proof.
  intros no s c H I J. unfold all_but in H. rewrite forallb_forall in H. specialize (H c J). apply negb_true_iff in H.
  assert (E : existsb (N.eqb c) no = true) by (apply existsb_exists; exists c; split; [exact I|apply N.eqb_refl]). congruence.
Qed.
Lemma not_contains : forall c s, ~ In c s -> contains [c] s = false.
Proof.
  intros c s H. destruct (contains [c] s) eqn:E; [|reflexivity]. exfalso. apply H. apply Safety.contains_spec in E as (a & b & ->). apply in_or_app. right. left. reflexivity.
Qed.
Lemma cut1_at : forall c a b, ~ In c a -> cut1 c (a ++ c :: b) = (a, b).
Proof. intros c a b H. unfold cut1. rewrite split1_at by exact H. reflexivity. Qed.
Lemma cut1_no : forall c a, ~ In c a -> cut1 c a = (a, []).
Proof. intros c a H. unfold cut1. rewrite split1_no by exact H. reflexivity. Qed.
Lemma netloc_none : forall u, startswith [47; 47] u = false -> split_netloc u = Ok ([], u).
Proof.
  intros u H. destruct u as [|a [|b t]].
  - reflexivity.
  - cbn [split_netloc]. destruct a as [|p]; [reflexivity|]. repeat (destruct p as [p|p|]; try reflexivity).
  - cbn [startswith] in H. destruct (N.eqb_spec 47 a) as [<-|Na].
    + cbn [andb] in H. destruct (N.eqb_spec 47 b) as [<-|Nb]; [discriminate H|]. cbn [split_netloc]. destruct b as [|p]; [reflexivity|]. repeat (destruct p as [p|p|]; try reflexivity). congruence.
    + cbn [split_netloc]. destruct a as [|p]; [reflexivity|]. repeat (destruct p as [p|p|]; try reflexivity). congruence.
Qed.
Lemma take_stop : forall (p : N -> bool) a r, forallb p a = true -> match r with [] => True | c :: _ => p c = false end -> take_while p (a ++ r) = a /\ drop_while p (a ++ r) = r.
Proof.
  intros p a r H R. induction a as [|c a IH].
  - destruct r as [|d r]; [split; reflexivity|]. cbn [app take_while drop_while]. rewrite R. split; reflexivity.
  - cbn [forallb] in H. apply andb_true_iff in H as [H1 H2]. destruct (IH H2) as [E1 E2]. cbn [app take_while drop_while]. rewrite H1. split; [f_equal; exact E1|exact E2].
Qed.
Lemma filter_id : forall (p : N -> bool) l, forallb p l = true -> filter p l = l.
Proof. intros p l H. induction l as [|c l IH]; [reflexivity|]. cbn [forallb] in H. apply andb_true_iff in H as [H1 H2]. cbn [filter]. rewrite H1, (IH H2). reflexivity. Qed.
Definition tail_of (a : addr) : str := opt_part (fun q => $ "?" ++ q) (a_query a) ++ opt_part (fun f => $ "#" ++ f) (a_fragment a).
Lemma tail_start : forall a, match tail_of a with [] => True | c :: _ => c = 63 \/ c = 35 end.
Proof. intros [s h p [q|] [f|]]; cbn; auto. Qed.
Lemma netloc_some : forall h p a, host_ok h = true -> match p with [] => True | c :: _ => c = 47 end -> split_netloc (47 :: 47 :: h ++ p ++ tail_of a) = Ok (h, p ++ tail_of a).
Proof.
  intros h p a H P. unfold host_ok in H. apply andb_true_iff in H as [H1 H]. cbn [split_netloc].
  assert (F : forallb (fun c => negb ((c =? 47) || (c =? 63) || (c =? 35))) h = true).
  { rewrite forallb_forall. intros c I. apply negb_true_iff. destruct (N.eqb_spec c 47); [subst c; exfalso; revert I; eapply all_but_in; [exact H|left; reflexivity]|].
    destruct (N.eqb_spec c 63); [subst c; exfalso; revert I; eapply all_but_in; [exact H|right; left; reflexivity]|].
    destruct (N.eqb_spec c 35); [subst c; exfalso; revert I; eapply all_but_in; [exact H|do 2 right; left; reflexivity]|]. reflexivity. }
  destruct (take_stop _ h (p ++ tail_of a) F) as [E1 E2].
  { destruct p as [|c p]; [cbn [app]; pose proof (tail_start a) as T; destruct (tail_of a) as [|c t]; [exact I|]; destruct T; subst c; reflexivity|]. subst c. reflexivity. }
  match goal with |- context [take_while ?q ?x] => replace (take_while q x) with h by (symmetry; exact E1); replace (drop_while q x) with (p ++ tail_of a) by (symmetry; exact E2) end.
  rewrite !not_contains; [reflexivity| |]; eapply all_but_in; [exact H|do 4 right; left; reflexivity|exact H|do 3 right; left; reflexivity].
Qed.
Lemma scheme_some : forall s w, scheme_ok s = true -> split_scheme (s ++ 58 :: w) = (s, w).
Proof.
  intros s w H. unfold scheme_ok in H. apply andb_true_iff in H as [H1 H2]. destruct s as [|c s]; [discriminate H1|]. cbn [app]. unfold split_scheme.
  assert (A : is_alpha c = true). { unfold small in H1. unfold is_alpha. rewrite H1. rewrite ?orb_true_r. reflexivity. }
  rewrite A. rewrite forallb_forall in H2.
  assert (N58 : ~ In 58 (c :: s)) by (intro I; specialize (H2 58 I); discriminate H2).
  rewrite (split1_at 58 (c :: s) w N58 : split1 58 (c :: s ++ 58 :: w) = Some (c :: s, w)).
  assert (F : forallb is_scheme_char (c :: s) = true).
  { rewrite forallb_forall. intros x I. specialize (H2 x I). unfold is_scheme_char, is_alpha, is_dec. unfold small, digit in H2.
    change (existsb (N.eqb x) ($ "+-.")) with ((x =? 43) || ((x =? 45) || ((x =? 46) || false))) in H2.
    destruct ((97 <=? x) && (x <=? 122)), ((48 <=? x) && (x <=? 57)), (x =? 43), (x =? 45), (x =? 46); cbn [orb] in *; rewrite ?orb_true_r; try reflexivity; discriminate H2. }
  rewrite F. f_equal. unfold lower. rewrite <- (map_id (c :: s)) at 2. apply map_ext_in. intros x I. specialize (H2 x I). unfold lower_c. unfold small, digit in H2.
  destruct (N.leb_spec 65 x); [|reflexivity]. destruct (N.leb_spec x 90); [|reflexivity]. exfalso.
  change (existsb (N.eqb x) ($ "+-.")) with ((x =? 43) || ((x =? 45) || ((x =? 46) || false))) in H2.
  rewrite !orb_true_iff, !andb_true_iff, !N.leb_le, !N.eqb_eq in H2. intuition; try lia; discriminate.
Qed.
Lemma scheme_none : forall seg w, ~ In 58 seg -> match w with [] => True | c :: _ => c = 47 \/ c = 63 \/ c = 35 end -> split_scheme (seg ++ w) = ([], seg ++ w).
Proof.
  intros seg w N58 W. unfold split_scheme. destruct (seg ++ w) as [|c r] eqn:E; [reflexivity|]. destruct (is_alpha c); [|reflexivity]. destruct (split1 58 (c :: r)) as [[x y]|] eqn:S; [|reflexivity].
  assert (F : forallb is_scheme_char x = false).
  { rewrite <- E in S. clear E. revert x S. induction seg as [|d seg IH]; intros x S.
    - cbn [app] in S. destruct w as [|d w]; [discriminate S|]. cbn [split1] in S. destruct W as [W|[W|W]]; subst d; cbn in S; destruct (split1 58 w) as [[x' y']|]; try discriminate S; injection S as <- <-; reflexivity.
    - cbn [app split1] in S. destruct (N.eqb_spec d 58); [subst d; exfalso; apply N58; left; reflexivity|]. destruct (split1 58 (seg ++ w)) as [[x' y']|] eqn:E'; [|discriminate S]. injection S as <- <-.
      cbn [forallb]. rewrite (IH (fun I => N58 (or_intror I)) x' eq_refl). apply andb_false_r. }
  rewrite F. reflexivity.
Qed.
Lemma seg_split : forall p : str, exists w, p = take_while (fun c => negb (c =? 47)) p ++ w /\ match w with [] => True | c :: _ => c = 47 end.
Proof.
  induction p as [|c p (w & E & W)]; [exists []; split; [reflexivity|exact I]|]. cbn [take_while]. destruct (N.eqb_spec c 47).
  - subst c. exists (47 :: p). split; reflexivity.
  - cbn [negb]. exists w. split; [cbn [app]; rewrite <- E; reflexivity|exact W].
Qed.
(** parameters *)
Lemma split1_while : forall c s, split1 c s = match drop_while (but c) s with [] => None | _ :: b => Some (take_while (but c) s, b) end.
Proof.
  intros c s. induction s as [|d s IH]; [reflexivity|]. cbn [split1 drop_while take_while]. change (but c d) with (negb (d =? c)). destruct (d =? c); cbn [negb]; [reflexivity|].
  rewrite IH. destruct (drop_while (but c) s); reflexivity.
Qed.
Lemma while_all : forall (f : N -> bool) s, take_while f s ++ drop_while f s = s.
Proof. intros f s. induction s as [|d s IH]; [reflexivity|]. cbn [take_while drop_while]. destruct (f d); [cbn [app]; rewrite IH; reflexivity|reflexivity]. Qed.
Lemma drop_but : forall c s, match drop_while (but c) s with [] => True | d :: _ => d = c end.
Proof. intros c s. induction s as [|d s IH]; [exact I|]. cbn [drop_while]. unfold but at 1. destruct (N.eqb_spec d c); cbn [negb]; [assumption|exact IH]. Qed.
Lemma folder_last : forall p, folder p ++ last_part p = p.
Proof. intros p. unfold folder, last_part. rewrite <- rev_app_distr, while_all. apply rev_involutive. Qed.
Lemma split_params_spec : forall p, split_params p = (folder p ++ take_while (but 59) (last_part p), tl (drop_while (but 59) (last_part p))).
Proof.
  intros p. assert (F : split_last 47 p = (folder p, last_part p)).
  { unfold split_last. rewrite split1_while. unfold folder, last_part. pose proof (drop_but 47 (rev p)) as D. pose proof (while_all (but 47) (rev p)) as W.
    destruct (drop_while (but 47) (rev p)) as [|d b]; [|subst d; reflexivity]. rewrite app_nil_r in W. rewrite W, rev_involutive. reflexivity. }
  unfold split_params. rewrite F. unfold cut1. rewrite split1_while. pose proof (while_all (but 59) (last_part p)) as W.
  destruct (drop_while (but 59) (last_part p)) as [|d b]; [rewrite app_nil_r in W; rewrite W; reflexivity|reflexivity].
Qed.
Lemma drop_none : forall c s, ~ In c s -> drop_while (but c) s = [].
Proof. intros c s. induction s as [|d s IH]; intros H; [reflexivity|]. cbn [drop_while]. unfold but at 1. destruct (N.eqb_spec d c); [exfalso; apply H; left; assumption|]. cbn [negb]. apply IH. intro J. apply H. right. exact J. Qed.
Lemma in_contains : forall c s, In c s -> contains [c] s = true.
Proof. intros c s H. apply in_split in H as (x & y & ->). apply Safety.contains_spec. exists x, y. reflexivity. Qed.
Definition the_scheme (a : addr) : str := opt_part (fun s => s) (a_scheme a).
Lemma has_params_list : forall a, match a_scheme a with Some s => scheme_ok s | None => true end = true -> in_list uses_params (the_scheme a) = has_params a.
Proof.
  intros a H. unfold has_params, the_scheme. destruct (a_scheme a) as [s|]; [|reflexivity]. cbn [opt_part]. destruct s as [|c s]; [discriminate H|]. reflexivity.
Qed.
Lemma path_split : forall a, plain_path a ++ params a = a_path a.
Proof. intros a. unfold plain_path, params. destruct (has_params a); [rewrite <- app_assoc, while_all; apply folder_last|apply app_nil_r]. Qed.
Lemma params_head : forall a, match params a with [] => True | c :: _ => c = 59 end.
Proof. intros a. unfold params. destruct (has_params a); [apply drop_but|exact I]. Qed.
Lemma params_found : forall a, match a_scheme a with Some s => scheme_ok s | None => true end = true ->
  (if in_list uses_params (the_scheme a) && contains [59] (a_path a) then split_params (a_path a) else (a_path a, [])) = (plain_path a, tl (params a)).
Proof.
  intros a H. rewrite (has_params_list a H). pose proof (path_split a) as P. revert P. unfold plain_path, params. destruct (has_params a); intros P; cbn [andb]; [|reflexivity].
  destruct (contains [59] (a_path a)) eqn:C; [apply split_params_spec|]. 
  assert (N : ~ In 59 (last_part (a_path a))).
  { intro J. assert (X : In 59 (a_path a)) by (rewrite <- (folder_last (a_path a)); apply in_or_app; right; exact J). apply in_contains in X. congruence. }
  rewrite (drop_none _ _ N) in *. rewrite app_nil_r in P. rewrite P. reflexivity.
Qed.
Lemma quote_addr : forall a, addr_ok a = true ->
  quote_link (VStr (show_addr a)) = Ok (show_addr (quoted a)).
Proof.
  intros a H. unfold quoted. unfold addr_ok in H. apply andb_true_iff in H as [H HH]. apply andb_true_iff in H as [H HS]. apply andb_true_iff in H as [H HF]. apply andb_true_iff in H as [H HQ]. apply andb_true_iff in H as [HC HP].
  set (p := a_path a) in *.
  assert (SH : show_addr a = opt_part (fun s => s ++ $ ":") (a_scheme a) ++ opt_part (fun h => $ "//" ++ h) (a_host a) ++ p ++ tail_of a) by reflexivity.
  assert (NB : forall c, In c breaks -> ~ In c (show_addr a)).
  { intros c B J. rewrite SH in J. rewrite !in_app_iff in J. destruct J as [J | [J | [J | J]]].
    - destruct (a_scheme a) as [s|]; [|destruct J]. cbn [opt_part] in J. apply in_app_or in J as [J|[J|[]]]; [|subst c; cbn in B; intuition; discriminate].
      unfold scheme_ok in HS. apply andb_true_iff in HS as [_ HS]. rewrite forallb_forall in HS. specialize (HS c J). destruct B as [<-|[<-|[<-|[]]]]; discriminate HS.
    - destruct (a_host a) as [h|]; [|destruct J]. cbn [opt_part] in J. apply in_app_or in J as [J|J]; [cbn in J, B; intuition; subst; discriminate|].
      apply andb_true_iff in HH as [HH _]. unfold host_ok in HH. apply andb_true_iff in HH as [HH _]. apply andb_true_iff in HH as [_ HH]. rewrite forallb_forall in HH. specialize (HH c J). destruct B as [<-|[<-|[<-|[]]]]; discriminate HH.
    - revert J. eapply all_but_in; [exact HP|]. apply in_or_app. right. exact B.
    - unfold tail_of in J. apply in_app_or in J as [J|J].
      + destruct (a_query a) as [q|]; [|destruct J]. cbn [opt_part] in J. destruct J as [J|J]; [subst c; cbn in B; intuition; discriminate|]. cbn [part_ok] in HQ. apply andb_true_iff in HQ as [_ HQ].
        revert J. eapply all_but_in; [exact HQ|]. apply in_or_app. right. exact B.
      + destruct (a_fragment a) as [q|]; [|destruct J]. cbn [opt_part] in J. destruct J as [J|J]; [subst c; cbn in B; intuition; discriminate|]. cbn [part_ok] in HF. apply andb_true_iff in HF as [_ HF].
        revert J. eapply all_but_in; [exact HF|]. exact B. }
  assert (ST : match show_addr a with [] => True | c :: _ => (c <=? 32) = false end).
  { rewrite SH. destruct (a_scheme a) as [s|].
    - unfold scheme_ok in HS. destruct s as [|c s]; [discriminate HS|]. cbn [opt_part app]. apply andb_true_iff in HS as [HS _]. unfold small in HS. apply andb_true_iff in HS as [HS _]. apply N.leb_le in HS. apply N.leb_gt. lia.
    - destruct (a_host a) as [h|]; [reflexivity|]. cbn [opt_part app]. apply andb_true_iff in HH as [_ HH]. apply andb_true_iff in HH as [HH _]. destruct p as [|c p']; [|apply negb_true_iff; exact HH].
      cbn [app]. pose proof (tail_start a) as T. destruct (tail_of a) as [|c t]; [exact I|]. destruct T; subst c; reflexivity. }
  assert (PA : urlparse (show_addr a) = Ok (mku (opt_part (fun s => s) (a_scheme a)) (opt_part (fun s => s) (a_host a)) (plain_path a) (tl (params a)) (opt_part (fun s => s) (a_query a)) (opt_part (fun s => s) (a_fragment a)))).
  { unfold urlparse.
    assert (E1 : drop_while (fun c => c <=? 32) (show_addr a) = show_addr a) by (destruct (show_addr a) as [|c t]; [reflexivity|]; cbn [drop_while]; rewrite ST; reflexivity).
    rewrite E1. assert (E2 : filter (fun c => negb ((c =? 9) || (c =? 13) || (c =? 10))) (show_addr a) = show_addr a).
    { apply filter_id. rewrite forallb_forall. intros c J. apply negb_true_iff. destruct (N.eqb_spec c 9); [subst c; exfalso; revert J; apply NB; left; reflexivity|].
      destruct (N.eqb_spec c 13); [subst c; exfalso; revert J; apply NB; do 2 right; left; reflexivity|]. destruct (N.eqb_spec c 10); [subst c; exfalso; revert J; apply NB; right; left; reflexivity|]. reflexivity. }
    rewrite E2.
    assert (E3 : split_scheme (show_addr a) = (opt_part (fun s => s) (a_scheme a), opt_part (fun h => $ "//" ++ h) (a_host a) ++ p ++ tail_of a)).
    { rewrite SH. destruct (a_scheme a) as [s|]; [cbn [opt_part]; rewrite <- app_assoc; apply scheme_some; exact HS|]. cbn [opt_part app].
      destruct (a_host a) as [h|]; [reflexivity|]. cbn [opt_part app]. apply andb_true_iff in HH as [_ HH]. apply andb_true_iff in HH as [_ HH]. destruct (seg_split p) as (w & E & W).
      pose proof (tail_start a) as T. set (seg := take_while (fun c => negb (c =? 47)) p) in *.
      assert (EQ : p ++ tail_of a = seg ++ (w ++ tail_of a)) by (rewrite app_assoc, <- E; reflexivity). rewrite EQ. apply scheme_none.
      - eapply all_but_in; [exact HH|left; reflexivity].
      - destruct w as [|c w]; [cbn [app]; destruct (tail_of a) as [|c t]; [exact I|destruct T; auto]|cbn [app]; auto]. }
    rewrite E3.
    assert (E4 : split_netloc (opt_part (fun h => $ "//" ++ h) (a_host a) ++ p ++ tail_of a) = Ok (opt_part (fun s => s) (a_host a), p ++ tail_of a)).
    { destruct (a_host a) as [h|].
      - apply andb_true_iff in HH as [HH1 HH2]. cbn [opt_part]. rewrite <- app_assoc. apply netloc_some; [exact HH1|]. destruct p as [|c p']; [exact I|apply N.eqb_eq; exact HH2].
      - cbn [opt_part app]. apply netloc_none. apply andb_true_iff in HH as [HH _]. apply negb_true_iff in HH. pose proof (tail_start a) as T. destruct p as [|c [|d p']]; cbn [app startswith] in *.
        + destruct (tail_of a) as [|c t]; [reflexivity|]. destruct T; subst c; reflexivity.
        + destruct (tail_of a) as [|d t]; [apply andb_false_r|]. destruct T; subst d; cbn; apply andb_false_r.
        + exact HH. }
    rewrite E4. cbn [bind].
    assert (NQ : ~ In 35 (p ++ opt_part (fun q => $ "?" ++ q) (a_query a))).
    { intro J. apply in_app_or in J as [J|J]; [revert J; eapply all_but_in; [exact HP|right; left; reflexivity]|]. destruct (a_query a) as [q|]; [|destruct J]. cbn [opt_part] in J. destruct J as [J|J]; [discriminate J|].
      cbn [part_ok] in HQ. apply andb_true_iff in HQ as [_ HQ]. revert J. eapply all_but_in; [exact HQ|left; reflexivity]. }
    assert (E5 : cut1 35 (p ++ tail_of a) = (p ++ opt_part (fun q => $ "?" ++ q) (a_query a), opt_part (fun s => s) (a_fragment a))).
    { unfold tail_of. destruct (a_fragment a) as [f|]; cbn [opt_part].
      - rewrite app_assoc. apply cut1_at. exact NQ.
      - rewrite app_nil_r. apply cut1_no. exact NQ. }
    rewrite E5.
    assert (N6 : ~ In 63 p) by (eapply all_but_in; [exact HP|left; reflexivity]).
    assert (E6 : cut1 63 (p ++ opt_part (fun q => $ "?" ++ q) (a_query a)) = (p, opt_part (fun s => s) (a_query a))).
    { destruct (a_query a) as [q|]; cbn [opt_part]; [apply cut1_at; exact N6|rewrite app_nil_r; apply cut1_no; exact N6]. }
    rewrite E6. pose proof (params_found a HS) as PF. unfold the_scheme in PF. unfold p. rewrite PF. reflexivity. }
  pose proof (path_split a) as SP. pose proof (params_head a) as PH. fold p in SP.
  assert (HC' : forallb character (plain_path a) = true) by (rewrite <- SP, forallb_app in HC; apply andb_true_iff in HC as [HC _]; exact HC).
  unfold quote_link. rewrite PA. cbn [bind u_path]. rewrite (quote_percent _ HC'). cbn [bind]. f_equal. unfold urlunparse. cbn [u_params u_path u_netloc u_scheme u_query u_fragment].
  assert (PQ : (if truthy (tl (params a)) then percent (plain_path a) ++ [59] ++ tl (params a) else percent (plain_path a)) = percent (plain_path a) ++ match params a with [_] => [] | t => t end).
  { destruct (params a) as [|c [|d m]]; [symmetry; apply app_nil_r|symmetry; apply app_nil_r|]. subst c. reflexivity. }
  rewrite PQ. clear PQ.
  assert (MH : match (match params a with [_] => [] | t => t end) with [] => True | c :: _ => c = 59 end) by (destruct (params a) as [|c [|d m]]; [exact I|exact I|exact PH]).
  set (par := match params a with [_] => [] | t => t end) in *.
  assert (FP : forall c, c <> 47 -> match percent_char c with d :: _ => d <> 47 | [] => False end).
  { intros c NC. unfold percent_char. destruct (unreserved c); [exact NC|]. unfold octets. destruct (c <? 128), (c <? 2048), (c <? 65536); cbn; discriminate. }
  unfold show_addr. cbn [a_scheme a_host a_path a_query a_fragment].
  assert (TQ : forall (o : option str) no (k : str), part_ok no o = true -> (if truthy (opt_part (fun s => s) o) then k ++ opt_part (fun s => s) o else []) = opt_part (fun q => k ++ q) o).
  { intros [s|] no k O; [|reflexivity]. cbn [part_ok] in O. cbn [opt_part]. destruct s as [|c s]; [discriminate O|reflexivity]. }
  assert (JQ : forall (x : str) (k : str) (o : option str) no, part_ok no o = true -> (if truthy (opt_part (fun s => s) o) then x ++ k ++ opt_part (fun s => s) o else x) = x ++ opt_part (fun q => k ++ q) o).
  { intros x k o no O. rewrite <- (TQ o no k O). destruct (truthy (opt_part (fun s => s) o)); [reflexivity|rewrite app_nil_r; reflexivity]. }
  set (pp := percent (plain_path a) ++ par).
  rewrite (JQ _ [63] _ ($ "#") HQ), (JQ _ [35] _ [] HF). rewrite !app_assoc. f_equal. f_equal.
  destruct (a_host a) as [h|].
  - apply andb_true_iff in HH as [HH1 HH2]. unfold host_ok in HH1. destruct h as [|c h]; [discriminate HH1|]. cbn [opt_part]. change (truthy (c :: h)) with true. cbn [orb].
    assert (PP : (if truthy pp && negb (startswith [47] pp) then [47] ++ pp else pp) = pp).
    { unfold pp. destruct (plain_path a) as [|d p'] eqn:EP.
      - cbn [app] in SP. rewrite <- SP in HH2. unfold par. destruct (params a) as [|d m]; [reflexivity|]. apply N.eqb_eq in HH2. congruence.
      - rewrite <- SP in HH2. cbn [app] in HH2. apply N.eqb_eq in HH2. subst d. reflexivity. }
    rewrite PP. destruct (a_scheme a) as [s|]; [|reflexivity]. unfold scheme_ok in HS. destruct s as [|d s]; [discriminate HS|]. cbn [opt_part truthy]. rewrite <- !app_assoc. reflexivity.
  - apply andb_true_iff in HH as [HH1 HH2]. apply negb_true_iff in HH1.
    assert (SW : startswith [47; 47] pp = false).
    { unfold pp. rewrite <- SP in HH1. unfold percent. destruct (plain_path a) as [|c p']; [cbn [flat_map app]; destruct par as [|c m]; [reflexivity|subst c; reflexivity]|]. cbn [flat_map]. destruct (N.eqb_spec c 47) as [->|NC].
      - change (percent_char 47) with [47]. cbn [app startswith] in *. change (47 =? 47) with true in *. cbn [andb] in *. destruct p' as [|d p']; [cbn [flat_map app]; destruct par as [|d m]; [reflexivity|subst d; reflexivity]|]. cbn [flat_map]. destruct (N.eqb_spec d 47) as [->|ND]; [discriminate HH1|].
        pose proof (FP d ND) as Q. destruct (percent_char d) as [|x r]; [destruct Q|]. cbn [app]. destruct (N.eqb_spec 47 x); [congruence|reflexivity].
      - pose proof (FP c NC) as Q. destruct (percent_char c) as [|x r]; [destruct Q|]. cbn [app startswith]. destruct (N.eqb_spec 47 x); [congruence|reflexivity]. }
    cbn [opt_part truthy orb]. rewrite SW, orb_false_r, app_nil_r. destruct (a_scheme a) as [s|]; [|reflexivity]. unfold scheme_ok in HS. destruct s as [|d s]; [discriminate HS|]. cbn [opt_part truthy andb].
    apply negb_true_iff in HH2. assert (NL : in_list uses_netloc (d :: s) = false).
    { destruct (in_list uses_netloc (d :: s)) eqn:E; [|reflexivity]. exfalso. apply TreeFacts.in_list_In in E. destruct E as [E|E]; [discriminate E|].
      assert (X : existsb (str_eqb (d :: s)) host_schemes = true) by (apply existsb_exists; exists (d :: s); split; [exact E|apply str_eqb_refl]). congruence. }
    rewrite NL. change (truthy (d :: s)) with true. change (truthy []) with false. cbn [orb andb]. rewrite app_nil_r, <- (app_assoc (d :: s)). reflexivity.
Qed.
