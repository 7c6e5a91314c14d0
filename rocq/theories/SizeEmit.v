(** * The size of a page: what is emitted *)
From Coq Require Import String List Arith NArith ZArith Bool Lia.
From Verif Require Import PyStr PyStrFacts Utils GNames Regex RegexFacts Rules DocTree CreoleParser ParserFacts
  HtmlEmitter EmitterFacts Spec Spec13 Spec50 NumeralFacts Safety SizeFacts.
Import ListNotations.
Open Scope nat_scope.

Lemma flat_len : forall {A} (f : A -> str) k l, (forall x, List.length (f x) <= k) -> List.length (flat_map f l) <= k * List.length l.
Proof.
  intros A f k l H. induction l as [|x l IH]; [cbn; lia|]. cbn [flat_map List.length]. rewrite app_length. specialize (H x). lia.
Qed.
Lemma escape_len : forall t, List.length (escape t) <= 5 * List.length t.
Proof.
  intro t. rewrite escape_esc. unfold esc. apply flat_len. intro c. unfold esc_char.
  repeat match goal with |- context[if ?b then _ else _] => destruct b end; cbn; lia.
Qed.
Lemma attr_len : forall t, List.length (attr_escape t) <= 5 * List.length t.
Proof.
  intro t. unfold attr_escape. rewrite replace_single, escape_esc. unfold esc. rewrite flat_map_flat_map. apply flat_len. intro c.
  unfold esc_char. destruct (N.eqb c 38); [cbn; lia|]. destruct (N.eqb c 60); [cbn; lia|]. destruct (N.eqb c 62); [cbn; lia|].
  cbn [flat_map]. rewrite app_nil_r. unfold sub1. destruct (N.eqb 34 c); cbn; lia.
Qed.

(** ** Numbers *)
Lemma digits_len : forall f n acc, List.length (digits_go f n acc) <= f + List.length acc.
Proof.
  induction f; intros n acc; [cbn; lia|]. cbn [digits_go]. destruct (N.ltb n 10); [cbn; lia|].
  etransitivity; [apply IHf|]. cbn [List.length]. lia.
Qed.
Lemma size_pow : forall n k, (n < 16 ^ N.of_nat k)%N -> N.to_nat (N.size n) <= 4 * k.
Proof.
  intros n k H. destruct n as [|p]; [cbn; lia|]. rewrite N.size_log2 by discriminate.
  change 16%N with (2 ^ 4)%N in H. rewrite <- N.pow_mul_r in H. apply N.log2_lt_pow2 in H; [|lia]. lia.
Qed.
Lemma size_small : forall n, N.to_nat (N.size (N.of_nat n)) <= n.
Proof.
  intro n. destruct n as [|n]; [cbn; lia|]. rewrite N.size_log2 by lia.
  assert (H := N.log2_lt_lin (N.of_nat (S n)) ltac:(lia)). lia.
Qed.
Lemma nat_len : forall n, List.length (show_nat n) <= n + 1.
Proof.
  intro n. unfold show_nat, show_N. assert (H := digits_len (S (N.to_nat (N.size (N.of_nat n)))) (N.of_nat n) []).
  assert (H2 := size_small n). cbn [List.length] in H. unfold char, str in *. lia.
Qed.
Lemma value_pow : forall l a, Forall (fun d => (d <= 9)%N) l -> forall k, (a < 16 ^ N.of_nat k)%N ->
  (fold_left (fun a d => a * 10 + d) l a < 16 ^ N.of_nat (k + List.length l))%N.
Proof.
  induction l as [|d l IH]; intros a HF k H; [rewrite Nat.add_0_r; exact H|]. inversion HF; subst. cbn [fold_left List.length].
  rewrite Nat.add_succ_r, <- Nat.add_succ_l. apply IH; [assumption|]. rewrite Nat2N.inj_succ, N.pow_succ_r'. lia.
Qed.
Lemma written_len : forall t l, written_digits t l -> List.length l <= List.length t /\ Forall (fun d => (d <= 9)%N) l.
Proof.
  intros t l H. induction H as [c v [Hv _]|c v s l [Hv _] H [IH1 IH2]|c v s l [Hv _] H [IH1 IH2]]; cbn [List.length]; split; try lia; auto.
Qed.
Lemma int_len : forall s z, py_int s = Some z -> List.length (show_Z z) <= 2 + 4 * List.length s.
Proof.
  intros s z H. apply number_iff in H. destruct H as [a sg t b l _ _ _ Hw _].
  destruct (written_len _ _ Hw) as [H1 H2].
  assert (HV := value_pow l 0 H2 0 ltac:(cbn; lia)). fold (value l) in HV. cbn [Nat.add] in HV.
  apply size_pow in HV. rewrite !app_length.
  assert (HS : forall z', z' = Z.of_N (value l) \/ z' = (- Z.of_N (value l))%Z -> List.length (show_Z z') <= 2 + 4 * List.length l).
  { intros z' Hz. assert (HD := digits_len (S (N.to_nat (N.size (value l)))) (value l) []). fold (show_N (value l)) in HD.
    cbn [List.length] in HD. destruct (value l) as [|p]; cbn [Z.of_N Z.opp] in Hz.
    - destruct Hz as [->| ->]; cbn; lia.
    - destruct Hz as [->| ->]; cbn [show_Z List.length]; unfold char, str in *; lia. }
  assert (H3 : List.length (show_Z (if str_eqb sg [45%N] then (- Z.of_N (value l))%Z else Z.of_N (value l))) <= 2 + 4 * List.length l)
    by (apply HS; destruct (str_eqb _ _); auto).
  unfold char, str in *. lia.
Qed.

(** ** Tabs after line breaks in list items *)
Definition br (n : node) : nat := if kind_beq (nkind n) KBreak then 1 else 0.
Definition brs (l : list node) : nat := list_sum (map br l).
Definition li_level (h : hdr) : nat := if kind_beq (hk h) KListItem then hlevel h else 0.
Fixpoint tb (n : node) : nat := match n with Nd h ch => list_sum (map tb ch) + li_level h * brs ch end.

Lemma split1_len : forall c s a b, split1 c s = Some (a, b) -> List.length a + List.length b + 1 = List.length s.
Proof.
  intro c. induction s as [|d s IH]; intros a b H; [discriminate|]. cbn [split1] in H. destruct (N.eqb d c).
  - injection H as <- <-. cbn. lia.
  - destruct (split1 c s) as [[a' b']|]; [|discriminate]. injection H as <- <-. specialize (IH _ _ eq_refl). cbn [List.length]. lia.
Qed.
Lemma some_inj : forall {A} (a b : A), Some a = Some b -> b = a.
Proof. intros A a b H. injection H as H. auto. Qed.
Lemma sized_len : forall t w r, image_sized t w = Some r -> List.length r <= 64 + 7 * List.length t + 10 * List.length w.
Proof.
  intros t w r H. unfold image_sized in H. destruct (split1 124%N w) as [[title sz]|] eqn:E; [|discriminate].
  destruct (split1 120%N sz) as [[ws hs]|] eqn:E2; [|discriminate].
  destruct (py_int (strip ws)) as [wi|] eqn:E3; [|discriminate]. destruct (py_int (strip hs)) as [hi|] eqn:E4; [|discriminate].
  apply some_inj in H. subst r. apply split1_len in E, E2. apply int_len in E3, E4. assert (H1 := strip_len ws). assert (H2 := strip_len hs).
  assert (H3 := attr_len t).
  assert (H4 : exists tt : str, (if truthy title then title else t) = tt /\ List.length tt <= List.length title + List.length t)
    by (destruct (truthy title); eexists; (split; [reflexivity | lia])).
  destruct H4 as (tt & -> & H4). set (A := show_Z wi) in *. set (B := show_Z hi) in *. set (C := attr_escape t) in *.
  clearbody A B C. repeat rewrite app_length. cbn [List.length]. unfold char, str in *. lia.
Qed.
Lemma get_text_len : forall h ch, List.length (get_text h ch) <= clen h + ws ch.
Proof.
  intros h [|[h' ch'] ch]; cbn [get_text].
  - unfold clen. destruct (hcontent h); cbn [List.length]; lia.
  - rewrite ws_cons, wn_eq. unfold wh, clen. destruct (hcontent h'); cbn [List.length]; lia.
Qed.
Lemma image_len : forall c t h ch, hcontent h = Some t -> List.length (image_emit c t h ch) <= 64 * wn (Nd h ch).
Proof.
  intros c t h ch Ht. rewrite wn_eq. unfold wh.
  assert (H1 := attr_len t). assert (H2 := attr_len (get_text h ch)).
  assert (HG := get_text_len h ch).
  assert (HC : clen h = List.length t) by (unfold clen; rewrite Ht; reflexivity).
  assert (HG2 : ch <> [] -> List.length (get_text h ch) + 1 <= ws ch).
  { destruct ch as [|[h' ch'] ch]; [congruence|]. intros _. cbn [get_text]. rewrite ws_cons, wn_eq. unfold wh, clen. destruct (hcontent h'); cbn [List.length]; lia. }
  unfold image_emit.
  assert (HN : List.length ($ "<img src=""" ++ attr_escape t ++ $ """ title=""" ++ attr_escape (get_text h ch) ++ $ """ alt="""
            ++ attr_escape (get_text h ch) ++ $ """ />") <= 64 * (1 + clen h + hlevel h + ws ch)).
  { rewrite !app_length. set (A := attr_escape t) in *. set (B := attr_escape (get_text h ch)) in *. clearbody A B. cbn [List.length]. unfold char, str in *. lia. }
  destruct (strict c); [exact HN|]. destruct (image_sized t (attr_escape (get_text h ch))) as [r|] eqn:E; [|exact HN].
  apply sized_len in E. unfold char, str in *.
  destruct ch as [|x ch]; [|specialize (HG2 ltac:(discriminate)); lia].
  cbn [get_text] in *. rewrite Ht in *. lia.
Qed.
Lemma list_len : forall par h t c, List.length t = 2 -> List.length (list_emit par h t c) <= 12 + 2 * hlevel h + List.length c.
Proof.
  intros par h t c Ht. unfold list_emit, tag. rewrite app_length.
  assert (H : List.length (if kind_beq (hk par) KDocument then [] else [10%N]) <= 1) by (destruct (kind_beq _ _); cbn; lia).
  set (A := if kind_beq (hk par) KDocument then _ else _) in *. clearbody A.
  destruct (kind_beq (hk h) KListItem); rewrite !app_length, !repeat_length, ?Ht; cbn [List.length]; unfold char, str in *; lia.
Qed.
Lemma ok_inj : forall (a b : str) (u v : est), (@Ok str a, u) = (Ok b, v) -> b = a.
Proof. intros a b u v H. injection H as H _. auto. Qed.

Definition no_mac (n : node) : Prop := match nkind n with KMacroInline | KMacroBlock => False | _ => True end.
Lemma emit_len : forall c, use_toc c = false -> forall n, everywhere no_mac n ->
  forall par st x st', emit_node c par n st = (Ok x, st') ->
  List.length x <= 64 * wn n + tb n + li_level par * br n.
Proof.
  intros c Hu n. induction n as [h ch IH] using node_ind'. intros He par st x st' H.
  rewrite emit_node_eq in H. cbn zeta in H.
  assert (Hh := everywhere_here _ _ He). apply everywhere_kids in He. unfold no_mac in Hh. cbn [nkind] in Hh.
  assert (HC : forall st x st', emit_children c h ch st = (Ok x, st') -> List.length x <= 64 * ws ch + tb (Nd h ch)).
  { clear - IH He. cbn [tb]. induction ch as [|n ch IHc]; intros st x st' E; cbn [emit_children] in E.
    - apply ok_inj in E; subst x. cbn. lia.
    - inversion IH as [|? ? H1 H2]; subst. inversion He as [|? ? H3 H4]; subst.
      destruct (emit_node c h n st) as [[a|e] s1] eqn:E1; [|discriminate].
      destruct (emit_children c h ch s1) as [[b|e] s2] eqn:E2; [|discriminate]. apply ok_inj in E; subst x.
      apply (H1 H3) in E1. apply (IHc H2 H4) in E2. rewrite app_length, ws_cons.
      unfold brs in *. unfold list_sum in *. cbn [map fold_right]. rewrite Nat.mul_add_distr_l. lia. }
  assert (HW : forall f k, (forall a, List.length (f a) <= k + List.length a) -> k <= 64 * wh h ->
             wrap f (emit_children c h ch st) = (Ok x, st') -> List.length x <= 64 * wn (Nd h ch) + tb (Nd h ch) + li_level par * br (Nd h ch)).
  { intros f k Hf Hk E. unfold wrap in E. destruct (emit_children c h ch st) as [[a|e] s1] eqn:E1; [|discriminate].
    apply ok_inj in E; subst x. apply HC in E1. specialize (Hf a). rewrite wn_eq. lia. }
  assert (HL : forall t k, hcontent h = Some t -> List.length x <= k + 64 * List.length t -> k <= 64 ->
             List.length x <= 64 * wn (Nd h ch) + tb (Nd h ch) + li_level par * br (Nd h ch)).
  { intros t k Ht Hl Hk. rewrite wn_eq. unfold wh, clen. rewrite Ht. unfold char, str in *. lia. }
  assert (H1 : 1 <= wh h) by (unfold wh; lia).
  assert (HT : forall t a, List.length (tag t a) <= 5 + 2 * List.length t + List.length a)
    by (intros t a; unfold tag; rewrite !app_length; cbn [List.length]; unfold char, str in *; lia).
  destruct (hk h) eqn:Hk; try (destruct Hh; fail).
  - apply HC in H. rewrite wn_eq. lia.
  - revert H; apply (HW _ 8); [|lia]. intro a. rewrite !app_length. cbn. lia.
  - destruct (hcontent h) as [t|] eqn:Et; [|discriminate]. apply ok_inj in H; subst x. apply (HL t 0); [reflexivity| |lia]. assert (E := escape_len t). unfold char, str in *. lia.
  - apply ok_inj in H; subst x. unfold br, nkind. rewrite Hk. cbn [kind_beq]. rewrite wn_eq, Nat.mul_1_r. unfold break_emit, li_level.
    destruct (hk par); cbn [kind_beq]; rewrite ?app_length, ?repeat_length; cbn [List.length app]; try lia; cbn; lia.
  - apply ok_inj in H; subst x. rewrite wn_eq. cbn [List.length]. lia.
  - apply ok_inj in H; subst x. rewrite wn_eq. cbn. lia.
  - destruct (hcontent h) as [t|] eqn:Et; [|discriminate]. unfold header_emit in H. rewrite Hu in H. apply ok_inj in H; subst x.
    rewrite !app_length. assert (E := escape_len t). assert (E2 := nat_len (hlevel h)).
    set (A := show_nat (hlevel h)) in *. set (B := escape t) in *. clearbody A B. rewrite wn_eq. unfold wh, clen. rewrite Et. cbn [List.length]. unfold char, str in *. cbn in E2 |- *. lia.
  - destruct (hcontent h) as [t|] eqn:Et; [|discriminate]. apply ok_inj in H; subst x. apply (HL t 12); [reflexivity| |lia].
    assert (E := escape_len t). rewrite !app_length. set (B := escape t) in *. clearbody B. cbn [List.length]. unfold char, str in *. cbn. lia.
  - destruct (hcontent h) as [t|] eqn:Et; [|discriminate]. apply ok_inj in H; subst x. apply (HL t 13); [reflexivity| |lia].
    assert (E := escape_len t). rewrite !app_length. set (B := escape t) in *. clearbody B. cbn [List.length]. unfold char, str in *. cbn. lia.
  - destruct (hcontent h) as [t|] eqn:Et; [|discriminate].
    assert (HI : exists a, List.length a <= 5 * List.length t + 64 * ws ch + tb (Nd h ch) /\ x = $ "<a href=""" ++ attr_escape t ++ $ """>" ++ a ++ $ "</a>").
    { destruct ch as [|n0 ch0] eqn:Ech; [apply ok_inj in H; subst x; exists (escape t); split; [assert (E := escape_len t); unfold char, str in *; lia | reflexivity]|].
      rewrite <- Ech in *. unfold wrap in H. destruct (emit_children c h ch st) as [[a|e] s1] eqn:E1; [|discriminate].
      apply ok_inj in H; subst x. exists a. split; [apply HC in E1; lia | reflexivity]. }
    destruct HI as (a & Ha & ->). assert (E := attr_len t). rewrite !app_length. set (B := attr_escape t) in *. clearbody B.
    rewrite wn_eq. unfold wh, clen. rewrite Et. set (T := tb (Nd h ch)) in *. clearbody T. cbn [List.length]. unfold char, str in *. cbn [wn] in *. set (br' := br (Nd h ch)). clearbody br'. cbn. lia.
  - destruct (hcontent h) as [t|] eqn:Et; [|discriminate]. apply ok_inj in H; subst x.
    assert (E := image_len c t h ch Et). lia.
  - revert H; apply (HW _ (12 + 2 * hlevel h)); [intro a; apply list_len; reflexivity | unfold wh; lia].
  - revert H; apply (HW _ (12 + 2 * hlevel h)); [intro a; apply list_len; reflexivity | unfold wh; lia].
  - revert H; apply (HW _ (12 + 2 * hlevel h)); [intro a; apply list_len; reflexivity | unfold wh; lia].
  - revert H; apply (HW _ 17); [|lia]. intro a. rewrite !app_length. cbn. lia.
  - revert H; apply (HW _ 12); [|lia]. intro a. rewrite !app_length. cbn. lia.
  - revert H; apply (HW _ 12); [|lia]. intro a. rewrite !app_length. cbn. lia.
  - revert H; apply (HW _ 12); [|lia]. intro a. rewrite !app_length. cbn. lia.
  - revert H; apply (HW _ 20); [|lia]. intro a. etransitivity; [apply HT|]. cbn. lia.
  - revert H; apply (HW _ 20); [|lia]. intro a. etransitivity; [apply HT|]. cbn. lia.
  - revert H; apply (HW _ 20); [|lia]. intro a. etransitivity; [apply HT|]. cbn. lia.
  - revert H; apply (HW _ 20); [|lia]. intro a. etransitivity; [apply HT|]. cbn. lia.
  - revert H; apply (HW _ 20); [|lia]. intro a. etransitivity; [apply HT|]. cbn. lia.
  - revert H; apply (HW _ 20); [|lia]. intro a. etransitivity; [apply HT|]. cbn. lia.
  - revert H; apply (HW _ 20); [|lia]. intro a. etransitivity; [apply HT|]. cbn. lia.
  - revert H; apply (HW _ 20); [|lia]. intro a. etransitivity; [apply HT|]. cbn. lia.
Qed.

(** the tabs are at most the square of the weight *)
Lemma brs_ws : forall l, brs l <= ws l.
Proof.
  induction l as [|[h ch] l IH]; [cbn; lia|]. rewrite ws_cons, wn_eq. unfold brs, list_sum in *. cbn [map fold_right].
  assert (br (Nd h ch) <= 1) by (unfold br; destruct (kind_beq _ _); lia). unfold wh. lia.
Qed.
Lemma tb_square : forall n, tb n <= wn n * wn n.
Proof.
  induction n as [h ch IH] using node_ind'. cbn [tb]. rewrite wn_eq.
  assert (H : list_sum (map tb ch) <= ws ch * ws ch).
  { clear h. induction ch as [|n ch IHc]; [cbn; lia|]. inversion IH as [|? ? H1 H2]; subst. specialize (IHc H2).
    rewrite ws_cons. unfold list_sum in *. cbn [map fold_right]. nia. }
  assert (H2 : li_level h <= wh h) by (unfold li_level, wh; destruct (kind_beq _ _); lia).
  assert (H3 := brs_ws ch). nia.
Qed.
