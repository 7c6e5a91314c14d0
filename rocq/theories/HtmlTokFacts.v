(** * The loop of html.parser: every round consumes text *)
From Coq Require Import String List Arith NArith ZArith Bool Lia.
From Verif Require Import PyStr PyStrFacts GNames Regex RegexFacts RegexRun Rules Utils Res HtmlTools HtmlTok.
Import ListNotations.
Open Scope N_scope.

Definition shorter (t : str) (x : step) : Prop :=
  match x with Next _ r _ => (List.length r < List.length t)%nat | _ => True end.

Lemma split1_length : forall c s a b, split1 c s = Some (a, b) -> (List.length b < List.length s)%nat.
Proof.
  induction s as [|d s IH]; intros a b H; [discriminate|]. cbn [split1] in H. destruct (d =? c).
  - inversion H; subst. simpl. lia.
  - destruct (split1 c s) as [[x y]|] eqn:E; [|discriminate]. inversion H; subst. specialize (IH _ _ eq_refl). simpl. lia.
Qed.
Lemma try_at_length : forall r adv b t x, try_at r adv b t = Some x -> nonnull r = true ->
  (0 < List.length (mtxt x) <= List.length t)%nat.
Proof.
  intros r adv b t x H Hr. apply try_at_Mt in H as (s' & Hm & E & _). apply (nonnull_consuming r Hr) in Hm.
  cbn [rest] in Hm. rewrite E in *. rewrite app_length in *. lia.
Qed.
Lemma search_length : forall r txt b x a, search r txt = Some (b, x, a) ->
  (List.length (mtxt x) + List.length a <= List.length txt)%nat.
Proof.
  induction txt as [|c t IH]; intros b x a H; cbn [search] in H.
  - destruct (try_at r false [] []) as [y|] eqn:E; [|discriminate]. inversion H; subst.
    apply try_at_Mt in E as (s' & _ & E & _). rewrite skipn_length. apply (f_equal (@List.length N)) in E. rewrite app_length in E. lia.
  - destruct (try_at r false [] (c :: t)) as [y|] eqn:E.
    + inversion H; subst. apply try_at_Mt in E as (s' & _ & E & _). rewrite skipn_length. apply (f_equal (@List.length N)) in E. rewrite app_length in E. lia.
    + destruct (search r t) as [[[b' x'] a']|] eqn:F; [|discriminate]. inversion H; subst. specialize (IH _ _ _ eq_refl). simpl. lia.
Qed.

Lemma match_at0 : forall r txt x, match_at r txt 0 = Some x -> try_at r false [] txt = Some x.
Proof. intros r txt x H. exact H. Qed.

Lemma starttag_shorter : forall t, shorter t (parse_starttag t).
Proof.
  intro t. unfold parse_starttag. destruct (check_for_whole_start_tag t) as [e|] eqn:E; [|exact I].
  assert (He : (0 < e)%nat /\ (0 < List.length t)%nat).
  { unfold check_for_whole_start_tag in E. destruct (match_at locatestarttagend_re t 0) as [x|] eqn:F; [|discriminate].
    apply match_at0 in F. apply try_at_length in F; [|reflexivity]. split; [|lia].
    destruct (skipn _ t) as [|c u]; [discriminate|]. destruct (c =? 62); [inversion E; lia|].
    destruct (c =? 47).
    - repeat (match type of E with context [match ?x with _ => _ end] => destruct x end; try discriminate); inversion E; lia.
    - destruct (is_letter_eq_slash c); [discriminate|]. inversion E; subst. lia. }
  destruct (match_at tagfind_re t 1) as [x|]; [|exact I].
  destruct (attr_loop _ _ _ _) as [a k]. cbv zeta.
  repeat match goal with |- context [if ?b then _ else _] => destruct b end; cbn [shorter]; rewrite skipn_length; lia.
Qed.
Lemma bogus_shorter : forall cd t, shorter t (parse_bogus_comment cd t).
Proof.
  intros cd t. unfold parse_bogus_comment. destruct (find 62 (skipn 2 t)) as [[a b]|] eqn:E; [|exact I].
  apply split1_length in E. cbn [shorter]. rewrite skipn_length in E. lia.
Qed.
Lemma endtag_shorter : forall cd t, shorter t (parse_endtag cd t).
Proof.
  intros cd t. unfold parse_endtag. destruct (find 62 (skipn 1 t)) as [[b u]|] eqn:E; [|exact I].
  apply split1_length in E. rewrite skipn_length in E. cbv zeta.
  destruct (match_at endtagfind_re t 0).
  - destruct cd as [e|]; [destruct (str_eqb _ e)|]; cbn [shorter]; lia.
  - destruct cd; [cbn [shorter]; lia|]. destruct (match_at tagfind_re t 2).
    + destruct (find 62 (skipn _ t)) as [[b' u']|] eqn:F; [|exact I]. apply split1_length in F. rewrite skipn_length in F. cbn [shorter]. lia.
    + destruct (startswith _ t); [cbn [shorter]; rewrite skipn_length; lia|apply bogus_shorter].
Qed.
Lemma declaration_shorter : forall t, shorter t (parse_html_declaration t).
Proof.
  intro t. unfold parse_html_declaration. destruct (startswith ($ "<![") t).
  - unfold parse_marked_section. cbv zeta. destruct (skipn 3 t) as [|c u] eqn:E; [exact I|].
    assert (L : (List.length (c :: u) < List.length t)%nat).
    { rewrite <- E, skipn_length. apply (f_equal (@List.length N)) in E. rewrite skipn_length in E. simpl in E. lia. }
    destruct (match_at declname_re (c :: u) 0); [|exact I]. destruct (Nat.eqb _ _); [exact I|].
    destruct (in_list _ _); [|destruct (in_list _ _); [|exact I]];
      (destruct (search _ (c :: u)) as [[[b x] a]|] eqn:F; [|exact I]); apply search_length in F; cbn [shorter]; lia.
  - destruct (str_eqb _ _); [|apply bogus_shorter]. destruct (find 62 (skipn 9 t)) as [[a b]|] eqn:E; [|exact I].
    apply split1_length in E. rewrite skipn_length in E. cbn [shorter]. lia.
Qed.
Lemma lt_shorter : forall cd t, shorter t (lt_step cd t).
Proof.
  intros cd [|a [|c t]]; try exact I. cbn [lt_step]. destruct (is_alpha c); [apply starttag_shorter|].
  destruct (c =? 47); [apply endtag_shorter|]. destruct (startswith _ _).
  - destruct (search _ _) as [[[b x] u]|] eqn:E; [|exact I]. apply search_length in E. rewrite skipn_length in E. cbn [shorter].
    cbn [List.length] in *. lia.
  - destruct (c =? 63); [apply bogus_shorter|]. destruct (c =? 33); [apply declaration_shorter|]. cbn [shorter]. rewrite skipn_length. simpl. lia.
Qed.
Lemma ref_shorter : forall r t x, match_at r t 0 = Some x -> nonnull r = true -> (2 <= List.length (mtxt x))%nat ->
  (List.length (skipn (if startswith [59%N] (skipn (pred (List.length (mtxt x))) t) then List.length (mtxt x) else pred (List.length (mtxt x))) t) < List.length t)%nat.
Proof.
  intros r t x H Hr Hl. apply match_at0 in H. apply try_at_length in H; [|exact Hr].
  destruct (startswith _ _); rewrite skipn_length; lia.
Qed.

(** the least number of characters of a match *)
Fixpoint minlen (r : regex) : nat :=
  match r with
  | RChr _ => 1
  | RSeq a b => minlen a + minlen b
  | RAlt a b => Nat.min (minlen a) (minlen b)
  | RGrp _ a => minlen a
  | _ => 0
  end%nat.
Lemma Mt_minlen : forall r s s', Mt r s s' -> (List.length (rest s') + minlen r <= List.length (rest s))%nat.
Proof.
  induction 1; cbn [minlen rest List.length] in *; try lia.
  pose proof (Mt_length _ _ _ (Mt_back _ _ _ _ H H0)). lia.
Qed.
Lemma match_minlen : forall r t x, match_at r t 0 = Some x -> (minlen r <= List.length (mtxt x))%nat.
Proof.
  intros r t x H. apply match_at0 in H. apply try_at_Mt in H as (s' & Hm & E & _). apply Mt_minlen in Hm.
  cbn [rest] in Hm. rewrite E, app_length in Hm. lia.
Qed.
Lemma amp_shorter : forall t, shorter t (amp_step t).
Proof.
  assert (C : forall (a b : N) t, shorter (a :: b :: t)
    (match match_at charref_re (a :: b :: t) 0 with
     | Some x => let k := List.length (mtxt x) in
       let k' := if startswith [59] (skipn (pred k) (a :: b :: t)) then k else pred k in
       Next [TCharref (group0 G_hp_entity x)] (skipn k' (a :: b :: t)) None
     | None => if contains [59] (a :: b :: t) then Stop [TData ($ "&#")] else Stop []
     end)).
  { intros a b t. destruct (match_at charref_re (a :: b :: t) 0) as [x|] eqn:E; [|destruct (contains _ _); exact I].
    cbn [shorter]. apply (ref_shorter charref_re); [exact E|reflexivity|]. apply match_minlen in E. cbn in E. lia. }
  assert (D : forall (a b : N) t, shorter (a :: b :: t)
    (match match_at entityref_re (a :: b :: t) 0 with
     | Some x => let k := List.length (mtxt x) in
       let k' := if startswith [59] (skipn (pred k) (a :: b :: t)) then k else pred k in
       Next [TEntity (group0 G_hp_entity x)] (skipn k' (a :: b :: t)) None
     | None => if is_alpha b then Stop [] else Next [TData [38]] (skipn 1 (a :: b :: t)) None
     end)).
  { intros a b t. destruct (match_at entityref_re (a :: b :: t) 0) as [x|] eqn:E.
    - cbn [shorter]. apply (ref_shorter entityref_re); [exact E|reflexivity|]. apply match_minlen in E. cbn in E. lia.
    - destruct (is_alpha b); [exact I|]. cbn [shorter skipn List.length]. lia. }
  intros [|a [|b t]]; try exact I. unfold amp_step.
  destruct (N.eq_dec b 35) as [->|Hb]; [apply C|]. specialize (D a b t).
  destruct b as [|p]; [exact D|]. do 6 (destruct p as [p|p|]; try exact D). exfalso. apply Hb. reflexivity.
Qed.

Definition one (cd : option str) (t : str) : step :=
  match t with c :: _ => if c =? 60 then lt_step cd t else amp_step t | [] => Stop [] end.
Lemma one_shorter : forall cd t, shorter t (one cd t).
Proof. intros cd [|c t]; [exact I|]. unfold one. destruct (c =? 60); [apply lt_shorter|apply amp_shorter]. Qed.

Lemma until_markup_app : forall t a b, until_markup t = (a, b) -> t = a ++ b.
Proof.
  induction t as [|c t IH]; intros a b H; cbn [until_markup] in H; [inversion H; reflexivity|].
  destruct ((c =? 60) || (c =? 38)); [inversion H; reflexivity|].
  destruct (until_markup t) as [x y]. inversion H; subst. simpl. rewrite <- (IH _ _ eq_refl). reflexivity.
Qed.
Lemma interesting_length : forall cd t d u, interesting cd t = Some (d, u) -> (List.length u <= List.length t)%nat.
Proof.
  intros [e|] t d u H; unfold interesting in H.
  - destruct (search _ t) as [[[b x] a]|] eqn:E; [|discriminate]. inversion H; subst. apply search_length in E. rewrite app_length. exact E.
  - inversion H as [E]. apply until_markup_app in E. rewrite E, app_length. lia.
Qed.

(** more fuel than characters makes no difference *)
Lemma tokens_fuel_enough : forall f g cd t, (List.length t < f)%nat -> (List.length t < g)%nat -> goahead f cd t = goahead g cd t.
Proof.
  induction f as [|f IH]; intros g cd t Hf Hg; [lia|]. destruct g as [|g]; [lia|]. cbn [goahead].
  destruct t as [|c t]; [reflexivity|]. destruct (interesting cd (c :: t)) as [[d [|e u]]|] eqn:E; try reflexivity.
  apply interesting_length in E. pose proof (one_shorter cd (e :: u)) as SH. unfold one in SH.
  destruct (if e =? 60 then lt_step cd (e :: u) else amp_step (e :: u)) as [ts| |ts r cd']; try reflexivity.
  cbn [shorter] in SH. rewrite (IH g cd' r) by lia. reflexivity.
Qed.
(** the handler calls for the remaining text [t] *)
Definition toks (cd : option str) (t : str) : list tok * bool := goahead (S (List.length t)) cd t.
Lemma toks_eq : forall cd t, toks cd t =
  match t with
  | [] => ([], false)
  | _ =>
    match interesting cd t with
    | None => ([], false)
    | Some (d, []) => (tdata d, false)
    | Some (d, u) =>
      match one cd u with
      | Stop ts => (tdata d ++ ts, false)
      | Raise => (tdata d, true)
      | Next ts rest cd' => let '(r, b) := toks cd' rest in (tdata d ++ ts ++ r, b)
      end
    end
  end.
Proof.
  intros cd [|c t]; [reflexivity|]. unfold toks at 1. cbn [goahead].
  destruct (interesting cd (c :: t)) as [[d [|e u]]|] eqn:E; try reflexivity.
  apply interesting_length in E. pose proof (one_shorter cd (e :: u)) as SH. unfold one in *.
  destruct (if e =? 60 then lt_step cd (e :: u) else amp_step (e :: u)) as [ts| |ts r cd']; try reflexivity.
  cbn [shorter] in SH. unfold toks. rewrite (tokens_fuel_enough (List.length (c :: t)) (S (List.length r))) by lia. reflexivity.
Qed.
