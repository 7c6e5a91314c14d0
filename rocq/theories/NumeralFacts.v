(** * [int()] of the model reads exactly the numbers of Spec50.v *)
From Coq Require Import String List Arith NArith ZArith Bool Lia.
From Verif Require Import PyStr PyStrFacts UniTab Regex Utils HtmlToolsFacts NumFacts Spec50.
Import ListNotations.
Open Scope N_scope.

Fixpoint spaced10 (l : list N) : bool :=
  match l with
  | [] => true
  | z :: t => forallb (fun y => z + 9 <? y) t && spaced10 t
  end.
Lemma digit_in_iff : forall l c v, spaced10 l = true -> digit_in l c = Some v <-> (v <= 9 /\ exists z, In z l /\ c = z + v).
Proof.
  induction l as [|z l IH]; intros c v H; [split; [discriminate|intros (_ & z & [] & _)]|].
  cbn [spaced10] in H. apply andb_true_iff in H as [H1 H2]. rewrite forallb_forall in H1. cbn [digit_in].
  destruct ((z <=? c) && (c <=? z + 9)) eqn:E.
  - apply andb_true_iff in E as [E1 E2]. apply N.leb_le in E1, E2. split.
    + intro K. assert (V : c - z = v) by congruence. split; [lia|]. exists z. split; [left; reflexivity|lia].
    + intros (V & y & [->|Y] & ->); [f_equal; lia|]. specialize (H1 y Y). apply N.ltb_lt in H1. lia.
  - rewrite IH by exact H2. split; intros (V & y & Y & C); (split; [exact V|]); exists y.
    + split; [right; exact Y|exact C].
    + destruct Y as [->|Y]; [|auto]. exfalso. rewrite andb_false_iff, !N.leb_gt in E. lia.
Qed.
Lemma zeros_spaced : spaced10 digit_zeros = true.
Proof. vm_compute. reflexivity. Qed.
Lemma zeros_high : forallb (fun z => (z =? 48) || (128 <=? z)) digit_zeros = true.
Proof. vm_compute. reflexivity. Qed.
Lemma zero_ascii : In 48 digit_zeros.
Proof. left. reflexivity. Qed.
Lemma digit_iff : forall c v, digit_val c = Some v <-> digit_of c v.
Proof.
  intros c v. unfold digit_val, digit_of. destruct (N.ltb_spec c 128) as [C|C].
  - destruct ((48 <=? c) && (c <=? 57)) eqn:E.
    + apply andb_true_iff in E as [E1 E2]. apply N.leb_le in E1, E2. split.
      * intro K. assert (V : c - 48 = v) by congruence. split; [lia|]. exists 48. split; [exact zero_ascii|lia].
      * intros (V & z & Z & ->). pose proof zeros_high as H. rewrite forallb_forall in H. specialize (H z Z). apply orb_true_iff in H as [H|H]; [apply N.eqb_eq in H|apply N.leb_le in H]; [f_equal; lia|lia].
    + split; [discriminate|]. intros (V & z & Z & ->). exfalso. pose proof zeros_high as H. rewrite forallb_forall in H. specialize (H z Z). rewrite andb_false_iff, !N.leb_gt in E.
      apply orb_true_iff in H as [H|H]; [apply N.eqb_eq in H|apply N.leb_le in H]; lia.
  - apply digit_in_iff, zeros_spaced.
Qed.
(** every digit, and its neighbours, are no blanks *)
Lemma zeros_solid : forallb (fun z => forallb (fun v => negb (is_space (z + v)) && negb ((z + v =? 95) || (z + v =? 43) || (z + v =? 45))) [0;1;2;3;4;5;6;7;8;9]) digit_zeros = true.
Proof. vm_compute. reflexivity. Qed.
Lemma digit_solid : forall c v, digit_of c v -> is_space c = false /\ c <> 95 /\ c <> 43 /\ c <> 45.
Proof.
  intros c v (V & z & Z & ->). pose proof zeros_solid as H. rewrite forallb_forall in H. specialize (H z Z). rewrite forallb_forall in H.
  assert (I : In v [0;1;2;3;4;5;6;7;8;9]) by (cbn [In]; lia). specialize (H v I). apply andb_true_iff in H as [H1 H2]. apply negb_true_iff in H1, H2. rewrite !orb_false_iff, !N.eqb_neq in H2. tauto.
Qed.
Lemma under_digit : digit_val 95 = None.
Proof. reflexivity. Qed.
Lemma digits_read : forall s l, written_digits s l -> forall us acc cnt,
  int_digits us acc cnt s = Some (fold_left (fun a d => a * 10 + d) l acc, cnt + N.of_nat (List.length l)).
Proof.
  induction 1 as [c v D|c v s l D H IH|c v s l D H IH]; intros us acc cnt; apply digit_iff in D; cbn [int_digits fold_left List.length]; rewrite D.
  - reflexivity.
  - rewrite IH. do 2 f_equal. lia.
  - rewrite under_digit. cbn [N.eqb Pos.eqb negb andb]. rewrite IH. do 2 f_equal. lia.
Qed.
Lemma read_digits : forall s us acc cnt n k, int_digits us acc cnt s = Some (n, k) ->
  (us = false /\ s = [] /\ n = acc /\ k = cnt) \/
  (exists l, written_digits s l /\ n = fold_left (fun a d => a * 10 + d) l acc /\ k = cnt + N.of_nat (List.length l)) \/
  (us = false /\ exists t l, s = 95 :: t /\ written_digits t l /\ n = fold_left (fun a d => a * 10 + d) l acc /\ k = cnt + N.of_nat (List.length l)).
Proof.
  induction s as [|c s IH]; intros us acc cnt n k H.
  - cbn [int_digits] in H. destruct us; [discriminate|]. left. assert (acc = n /\ cnt = k) as [-> ->] by (split; congruence). auto.
  - cbn [int_digits] in H. destruct (digit_val c) as [v|] eqn:D.
    + apply digit_iff in D. right. left. apply IH in H as [(_ & -> & -> & ->)|[(l & W & -> & ->)|(_ & t & l & -> & W & -> & ->)]].
      * exists [v]. split; [apply wd_one; exact D|]. split; [reflexivity|]. cbn [List.length]. lia.
      * exists (v :: l). split; [apply wd_next; assumption|]. split; [reflexivity|]. cbn [List.length]. lia.
      * exists (v :: l). split; [apply wd_under; assumption|]. split; [reflexivity|]. cbn [List.length]. lia.
    + destruct ((c =? 95) && negb us) eqn:E; [|discriminate]. apply andb_true_iff in E as [E U]. apply N.eqb_eq in E. apply negb_true_iff in U. subst c us.
      apply IH in H as [(K & _)|[(l & W & -> & ->)|(K & _)]]; [discriminate| |discriminate]. right. right. split; [reflexivity|]. exists s, l. auto.
Qed.
Lemma digits_first : forall s l, written_digits s l -> exists c t, s = c :: t /\ c <> 43 /\ c <> 45 /\ int_space c = false.
Proof.
  intros s l H. destruct H as [c v D|c v s l D H|c v s l D H]; destruct (digit_solid c v D) as (A & _ & B & C); eexists; eexists; (split; [reflexivity|]); split; try exact B; (split; [exact C|]); unfold int_space; rewrite A; reflexivity.
Qed.
Lemma digits_last : forall s l, written_digits s l -> exists t c, s = t ++ [c] /\ int_space c = false.
Proof.
  induction 1 as [c v D|c v s l D H (t & d & -> & IH)|c v s l D H (t & d & -> & IH)].
  - exists [], c. split; [reflexivity|]. unfold int_space. rewrite (proj1 (digit_solid c v D)). reflexivity.
  - exists (c :: t), d. auto.
  - exists (c :: 95 :: t), d. auto.
Qed.
Lemma around_iff : forall s, blank_around s <-> forallb int_space s = true.
Proof.
  intro s. unfold blank_around. rewrite forallb_forall. split; intros H c Hc; specialize (H c Hc); unfold int_space in *.
  - destruct H as [H1 H2]. rewrite H1. cbn [andb]. apply negb_true_iff. rewrite andb_false_iff, !N.leb_gt. lia.
  - apply andb_true_iff in H as [H1 H2]. split; [exact H1|]. apply negb_true_iff in H2. rewrite andb_false_iff, !N.leb_gt in H2. lia.
Qed.
Lemma strip_around : forall p a b s, forallb p a = true -> forallb p b = true -> strip_by p (a ++ s ++ b) = strip_by p s.
Proof.
  intros p a b s Ha Hb. unfold strip_by, lstrip_by. induction a as [|c a IH].
  - cbn [app]. clear Ha. induction s as [|c s IH].
    + cbn [app drop_while]. cbn [rstrip_by]. assert (D : drop_while p b = []) by (induction b as [|x b IB]; [reflexivity|]; cbn [forallb] in Hb; apply andb_true_iff in Hb as [H1 H2]; cbn [drop_while]; rewrite H1; apply IB; exact H2).
      rewrite D. reflexivity.
    + cbn [app drop_while]. destruct (p c); [exact IH|]. change (c :: s ++ b) with ((c :: s) ++ b). apply rstrip_app_all. exact Hb.
  - cbn [forallb] in Ha. apply andb_true_iff in Ha as [H1 H2]. cbn [app drop_while]. rewrite H1. apply IH. exact H2.
Qed.
Definition sign (v : str) : bool * str := match v with 45 :: u => (true, u) | 43 :: u => (false, u) | _ => (false, v) end.
Definition signed (x : bool * str) : option Z :=
  let (neg, t) := x in
  match int_digits true 0 0 t with Some (n, cnt) => if cnt <=? int_max_digits then Some (if neg then (- Z.of_N n)%Z else Z.of_N n) else None | None => None end.
Lemma py_int_eq : forall s, py_int s = signed (sign (strip_by int_space s)).
Proof. intro s. unfold py_int, signed, sign. reflexivity. Qed.
Lemma sign_head : forall v c t, v = c :: t -> c <> 43 -> c <> 45 -> sign v = (false, v).
Proof.
  intros v c t -> A B. unfold sign. destruct c as [|p]; [reflexivity|].
  repeat (match goal with |- context [match ?q with xI _ => _ | xO _ => _ | xH => _ end] => destruct q end; try reflexivity); congruence.
Qed.
Lemma number_read : forall s z, number s z -> py_int s = Some z.
Proof.
  intros s z [a sg t b l Ha Hb Hs W Hl]. apply around_iff in Ha, Hb. rewrite py_int_eq.
  assert (E : strip_by int_space (a ++ sg ++ t ++ b) = sg ++ t).
  { replace (a ++ sg ++ t ++ b) with (a ++ (sg ++ t) ++ b) by (rewrite <- !app_assoc; reflexivity). rewrite strip_around by assumption.
    destruct (digits_first t l W) as (c & u & -> & _ & _ & F). destruct (digits_last (c :: u) l W) as (v & d & V & G).
    destruct Hs as [<-|[<-|[<-|[]]]]; cbn [app].
    - destruct v as [|x v]; cbn [app] in V.
      + assert (u = [] /\ c = d) as [-> ->] by (split; congruence). unfold strip_by, lstrip_by. cbn [drop_while]. rewrite F. cbn [rstrip_by]. rewrite F. reflexivity.
      + assert (u = v ++ [d]) as -> by congruence. apply strip_by_id; assumption.
    - rewrite V. apply strip_by_id; [reflexivity|exact G].
    - rewrite V. apply strip_by_id; [reflexivity|exact G]. }
  rewrite E. assert (L : (N.of_nat (List.length l) <=? int_max_digits) = true) by (apply N.leb_le; exact Hl).
  destruct (digits_first t l W) as (c & u & T & F1 & F2 & _). pose proof (digits_read t l W true 0 0) as R. rewrite N.add_0_l in R.
  destruct Hs as [<-|[<-|[<-|[]]]]; cbn [app].
  - rewrite (sign_head t c u T F1 F2). cbn [signed]. rewrite R, L. reflexivity.
  - cbn [sign signed]. rewrite R, L. reflexivity.
  - cbn [sign signed]. rewrite R, L. reflexivity.
Qed.
Lemma read_number : forall s z, py_int s = Some z -> number s z.
Proof.
  intros s z H. destruct (strip_split int_space s) as (a & b & E & Ha & Hb). apply around_iff in Ha, Hb. rewrite py_int_eq in H. revert E H. generalize (strip_by int_space s). intros v E H. subst s.
  assert (G : forall neg t, match int_digits true 0 0 t with Some (n, cnt) => if cnt <=? int_max_digits then Some (if neg : bool then (- Z.of_N n)%Z else Z.of_N n) else None | None => None end = Some z ->
    exists l, written_digits t l /\ N.of_nat (List.length l) <= 4300 /\ z = if neg : bool then (- Z.of_N (value l))%Z else Z.of_N (value l)).
  { intros neg t K. destruct (int_digits true 0 0 t) as [[n cnt]|] eqn:D; [|discriminate]. destruct (N.leb_spec cnt int_max_digits) as [M|M]; [|discriminate].
    apply read_digits in D as [(X & _)|[(l & W & -> & ->)|(X & _)]]; [discriminate| |discriminate]. exists l. split; [exact W|]. split; [unfold int_max_digits in M; lia|]. unfold value. destruct neg; congruence. }
  assert (C : (exists t, v = 45 :: t) \/ (exists t, v = 43 :: t) \/ sign v = (false, v)).
  { destruct v as [|c t]; [right; right; reflexivity|]. destruct (N.eq_dec c 45) as [->|A]; [left; exists t; reflexivity|]. destruct (N.eq_dec c 43) as [->|B]; [right; left; exists t; reflexivity|]. right. right. exact (sign_head _ c t eq_refl B A). }
  destruct C as [(t & ->)|[(t & ->)|C]].
  - destruct (G true t H) as (l & W & L & ->). exact (number_of a [45] t b l Ha Hb (or_intror (or_intror (or_introl eq_refl))) W L).
  - destruct (G false t H) as (l & W & L & ->). exact (number_of a [43] t b l Ha Hb (or_intror (or_introl eq_refl)) W L).
  - rewrite C in H. destruct (G false v H) as (l & W & L & ->). exact (number_of a [] v b l Ha Hb (or_introl eq_refl) W L).
Qed.
Lemma number_iff : forall s z, number s z <-> py_int s = Some z.
Proof. intros s z. split; [apply number_read|apply read_number]. Qed.
Lemma no_number : forall s, (forall z, ~ number s z) <-> py_int s = None.
Proof.
  intro s. split.
  - intro H. destruct (py_int s) as [z|] eqn:E; [|reflexivity]. exfalso. exact (H z (read_number s z E)).
  - intros H z N. apply number_read in N. congruence.
Qed.

(** ** the check *)
Lemma digit_is : forall c, digit c = is_digit c.
Proof.
  intro c. unfold is_digit. destruct (digit_val c) as [v|] eqn:D.
  - apply digit_iff in D. destruct D as (V & z & Z & ->). unfold digit. apply existsb_exists. exists z. split; [exact Z|]. apply andb_true_iff. split; apply N.leb_le; lia.
  - apply not_true_iff_false. intro E. unfold digit in E. apply existsb_exists in E as (z & Z & E). apply andb_true_iff in E as [E1 E2]. apply N.leb_le in E1, E2.
    assert (K : digit_of c (c - z)) by (split; [lia|]; exists z; split; [exact Z|lia]). apply digit_iff in K. congruence.
Qed.
Lemma after_read : forall s acc cnt, if digits_after s then exists n, int_digits false acc cnt s = Some (n, cnt + N.of_nat (List.length (filter digit s))) else int_digits false acc cnt s = None.
Proof.
  induction s as [|c s IH]; intros acc cnt; [cbn [digits_after int_digits filter List.length]; exists acc; do 2 f_equal; lia|].
  cbn [digits_after int_digits filter]. pose proof (digit_is c) as D. unfold is_digit in D. destruct (digit_val c) as [v|]; rewrite D.
  - specialize (IH (acc * 10 + v) (cnt + 1)). destruct (digits_after s); [|exact IH]. destruct IH as (n & ->). exists n. cbn [List.length]. do 2 f_equal. lia.
  - destruct (c =? 95); cbn [andb negb]; [|reflexivity]. destruct s as [|d s]; [reflexivity|].
    pose proof (digit_is d) as D2. unfold is_digit in D2. destruct (digit_val d) as [v|] eqn:V; rewrite D2; cbn [andb].
    + replace (int_digits true acc cnt (d :: s)) with (int_digits false acc cnt (d :: s)) by (cbn [int_digits]; rewrite V; reflexivity). apply IH.
    + cbn [int_digits]. rewrite V, andb_false_r. reflexivity.
Qed.
Lemma first_read : forall u, (match u with c :: t => digit c && digits_after t | [] => false end) = true ->
  exists n, int_digits true 0 0 u = Some (n, N.of_nat (List.length (filter digit u))).
Proof.
  intros [|c t] H; [discriminate|]. apply andb_true_iff in H as [H1 H2]. cbn [int_digits filter]. rewrite H1. rewrite digit_is in H1. unfold is_digit in H1.
  destruct (digit_val c) as [v|]; [|discriminate]. pose proof (after_read t (0 * 10 + v) (0 + 1)) as K. rewrite H2 in K. destruct K as (n & ->). exists n. cbn [List.length]. do 2 f_equal. lia.
Qed.
Lemma first_not : forall u, (match u with c :: t => digit c && digits_after t | [] => false end) = false -> int_digits true 0 0 u = None.
Proof.
  intros [|c t] H; [reflexivity|]. cbn [int_digits]. apply andb_false_iff in H. pose proof (digit_is c) as D. unfold is_digit in D. destruct (digit_val c) as [v|].
  - destruct H as [H|H]; [congruence|]. pose proof (after_read t (0 * 10 + v) (0 + 1)) as K. rewrite H in K. exact K.
  - rewrite andb_false_r. reflexivity.
Qed.
Lemma sign_unsigned : forall v, exists b, sign v = (b, unsigned v).
Proof.
  intros [|c t]; [exists false; reflexivity|]. cbn [unsigned]. destruct (N.eqb_spec c 43) as [->|A]; [exists false; reflexivity|]. destruct (N.eqb_spec c 45) as [->|B]; [exists true; reflexivity|].
  exists false. exact (sign_head _ c t eq_refl A B).
Qed.
Lemma numeral_int : forall s, numeral s = match py_int s with Some _ => true | None => false end.
Proof.
  intro s. rewrite py_int_eq. unfold numeral. change (fun c => is_space c && negb ((28 <=? c) && (c <=? 31))) with int_space. cbv zeta.
  destruct (sign_unsigned (strip_by int_space s)) as (b & ->). generalize (unsigned (strip_by int_space s)). intro u. cbn [signed].
  destruct (match u with c :: t => digit c && digits_after t | [] => false end) eqn:E.
  - destruct (first_read u E) as (n & ->). cbn [andb]. unfold int_max_digits. destruct (_ <=? 4300); reflexivity.
  - rewrite (first_not u E). reflexivity.
Qed.
Lemma numeral_iff : forall s, numeral s = true <-> exists z, number s z.
Proof.
  intro s. rewrite numeral_int. split.
  - destruct (py_int s) as [z|] eqn:E; [|discriminate]. intros _. exists z. apply number_iff. exact E.
  - intros (z & Z). apply number_iff in Z. rewrite Z. reflexivity.
Qed.
(** a character that int() never takes *)
Lemma digits_strange : forall c s us acc cnt, In c s -> digit_val c = None -> c <> 95 -> int_digits us acc cnt s = None.
Proof.
  intros c. induction s as [|d s IH]; intros us acc cnt Hi Hd Hu; [destruct Hi|]. cbn [int_digits]. destruct Hi as [->|Hi].
  - rewrite Hd. rewrite (proj2 (N.eqb_neq c 95) Hu). reflexivity.
  - destruct (digit_val d); [apply IH; assumption|]. destruct ((d =? 95) && negb us); [apply IH; assumption|reflexivity].
Qed.
Lemma strange : forall c s, In c s -> digit_val c = None -> c <> 95 -> c <> 43 -> c <> 45 -> is_space c = false -> py_int s = None.
Proof.
  intros c s Hi Hd Hu Hp Hm Hs. rewrite py_int_eq. assert (I : In c (strip_by int_space s)).
  { apply strip_by_In; [exact Hi|]. unfold int_space. rewrite Hs. reflexivity. }
  destruct (sign_unsigned (strip_by int_space s)) as (b & ->). revert I. generalize (strip_by int_space s). intros v I. cbn [signed].
  assert (J : In c (unsigned v)).
  { destruct v as [|d v]; [exact I|]. cbn [unsigned]. destruct (N.eqb_spec d 43) as [->|]; [destruct I as [I|I]; [congruence|exact I]|]. destruct (N.eqb_spec d 45) as [->|]; [destruct I as [I|I]; [congruence|exact I]|]. exact I. }
  rewrite (digits_strange c _ true 0 0 J Hd Hu). reflexivity.
Qed.
