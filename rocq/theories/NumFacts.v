(** * Numbers and their decimal digits *)
From Coq Require Import String List Arith NArith ZArith Bool Lia.
From Verif Require Import PyStr PyStrFacts Utils Spec2 HtmlToolsFacts.
Import ListNotations.
Open Scope N_scope.

Lemma dec_value_go : forall f n acc a, (N.to_nat (N.size n) < f)%nat ->
  fold_left (fun a c => a * 10 + (c - 48)) (digits_go f n acc) a =
  fold_left (fun a c => a * 10 + (c - 48)) acc (fold_left (fun a c => a * 10 + (c - 48)) (digits_go f n []) a).
Proof.
  induction f as [|f IH]; intros n acc a H; [lia|]. cbn [digits_go]. destruct (N.ltb_spec n 10) as [L|L]; [reflexivity|].
  assert (S : (N.to_nat (N.size (n / 10)) < f)%nat).
  { assert (n / 10 < n) by (apply N.div_lt; lia). assert (0 < n / 10) by (apply N.div_str_pos; lia).
    rewrite !N.size_log2 in * by lia. assert (N.log2 (n / 10) < N.log2 n); [|lia].
    apply N.log2_lt_pow2; [lia|]. assert (n < 2 ^ N.succ (N.log2 n)) by (apply N.log2_spec; lia).
    rewrite N.pow_succ_r' in *. apply N.div_lt_upper_bound; lia. }
  rewrite (IH _ (_ :: acc)), (IH _ [_]) by exact S. reflexivity.
Qed.
Lemma dec_value_show : forall n, dec_value (show_N n) = n.
Proof.
  intro n. unfold dec_value, show_N.
  assert (G : forall f n, (N.to_nat (N.size n) < f)%nat -> fold_left (fun a c => a * 10 + (c - 48)) (digits_go f n []) 0 = n).
  { clear n. induction f as [|f IH]; intros n H; [lia|]. cbn [digits_go]. destruct (N.ltb_spec n 10) as [L|L].
    - cbn [fold_left]. lia.
    - assert (S : (N.to_nat (N.size (n / 10)) < f)%nat).
      { assert (n / 10 < n) by (apply N.div_lt; lia). assert (0 < n / 10) by (apply N.div_str_pos; lia).
        rewrite !N.size_log2 in * by lia. assert (N.log2 (n / 10) < N.log2 n); [|lia].
        apply N.log2_lt_pow2; [lia|]. assert (n < 2 ^ N.succ (N.log2 n)) by (apply N.log2_spec; lia).
        rewrite N.pow_succ_r' in *. apply N.div_lt_upper_bound; lia. }
      rewrite dec_value_go by exact S. rewrite IH by exact S. cbn [fold_left].
      pose proof (N.div_mod' n 10) as D. revert D. generalize (n / 10), (n mod 10). intros q r D. rewrite D. lia. }
  apply G. lia.
Qed.
Lemma show_N_ne : forall n, show_N n <> [].
Proof.
  intro n. unfold show_N.
  assert (G : forall f n acc, acc <> [] -> digits_go f n acc <> []).
  { induction f as [|f IH]; intros m acc H; [exact H|]. cbn [digits_go]. destruct (m <? 10); [discriminate|]. apply IH. discriminate. }
  cbn [digits_go]. destruct (n <? 10); [discriminate|]. apply G. discriminate.
Qed.
Lemma show_Z_N : forall n, show_Z (Z.of_N n) = show_N n.
Proof. intros [|p]; reflexivity. Qed.
Lemma py_int_show : forall n, (N.of_nat (List.length (show_N n)) <= 4300) -> py_int (show_N n) = Some (Z.of_N n).
Proof.
  intros n H. rewrite py_int_dec; [rewrite dec_value_show; reflexivity|apply show_N_ne| |exact H].
  apply show_N_digits.
Qed.
Lemma show_N_space : forall n, forallb (fun c => negb (is_space c)) (show_N n) = true.
Proof.
  intro n. pose proof (show_N_digits n) as H. rewrite forallb_forall in *. intros c Hc. specialize (H c Hc).
  apply dec_digit in H as (_ & _ & E & _). rewrite E. reflexivity.
Qed.
Lemma show_N_strip : forall n, strip (show_N n) = show_N n.
Proof. intro n. apply strip_by_clean. apply show_N_space. Qed.
Lemma split1_no : forall c s, ~ In c s -> split1 c s = None.
Proof.
  induction s as [|d s IH]; intro H; [reflexivity|]. cbn [split1]. destruct (N.eqb_spec d c) as [->|]; [exfalso; apply H; left; reflexivity|].
  rewrite IH; [reflexivity|]. intro. apply H. right. assumption.
Qed.
Lemma split1_at : forall c a b, ~ In c a -> split1 c (a ++ c :: b) = Some (a, b).
Proof.
  induction a as [|d a IH]; intros b H; cbn [app split1]; [rewrite N.eqb_refl; reflexivity|].
  destruct (N.eqb_spec d c) as [->|]; [exfalso; apply H; left; reflexivity|].
  rewrite IH; [reflexivity|]. intro. apply H. right. assumption.
Qed.
Lemma show_N_In : forall n c, In c (show_N n) -> 48 <= c <= 57.
Proof.
  intros n c H. pose proof (show_N_digits n) as D. rewrite forallb_forall in D. apply D in H.
  apply andb_true_iff in H as [H1 H2]. apply N.leb_le in H1, H2. lia.
Qed.
Lemma strip_by_In : forall p s c, In c s -> p c = false -> In c (strip_by p s).
Proof.
  intros p s c Hi Hc. destruct (strip_split p s) as (a & b & E & Ha & Hb). rewrite E in Hi.
  rewrite !in_app_iff in Hi. rewrite forallb_forall in Ha, Hb. destruct Hi as [Hi|[Hi|Hi]]; [|exact Hi|].
  - apply Ha in Hi. congruence.
  - apply Hb in Hi. congruence.
Qed.
(** int() rejects ASCII letters *)
Definition ascii_letter (c : N) : Prop := 65 <= c <= 90 \/ 97 <= c <= 122.
Lemma letter_space : forall c, ascii_letter c -> is_space c = false.
Proof.
  intros c H. unfold is_space. rewrite !orb_false_iff, !andb_false_iff, !N.eqb_neq, !N.leb_gt. unfold ascii_letter in H. lia.
Qed.
Lemma int_digits_letter : forall c s us acc cnt, ascii_letter c -> In c s -> int_digits us acc cnt s = None.
Proof.
  intros c. induction s as [|d s IH]; intros us acc cnt Hc Hi; [destruct Hi|]. cbn [int_digits]. destruct Hi as [->|Hi].
  - unfold Regex.digit_val. unfold ascii_letter in Hc. rewrite (proj2 (N.ltb_lt c 128)) by lia.
    replace ((48 <=? c) && (c <=? 57)) with false by (symmetry; rewrite andb_false_iff, !N.leb_gt; lia).
    rewrite (proj2 (N.eqb_neq c 95)) by lia. reflexivity.
  - destruct (Regex.digit_val d); [apply IH; assumption|]. destruct ((d =? 95) && negb us); [apply IH; assumption|reflexivity].
Qed.
Lemma py_int_letter : forall c s, ascii_letter c -> In c s -> py_int s = None.
Proof.
  intros c s Hc Hi. unfold py_int. assert (Hs : In c (strip_by int_space s)).
  { apply strip_by_In; [exact Hi|]. unfold int_space. rewrite letter_space by exact Hc. reflexivity. }
  revert Hs. generalize (strip_by int_space s). intros v Hv.
  assert (K : forall neg u, (In c v -> In c u) -> match int_digits true 0 0 u with
     | Some (n, cnt) => if cnt <=? int_max_digits then Some (if neg : bool then (- Z.of_N n)%Z else Z.of_N n) else None | None => None end = None).
  { intros neg u Hu. rewrite (int_digits_letter c) by (try exact Hc; exact (Hu Hv)). reflexivity. }
  unfold ascii_letter in Hc.
  destruct v as [|d v]; [destruct Hv|].
  destruct (N.eq_dec d 45) as [->|H1]; [apply (K true v); intros [<-|H]; [lia|exact H]|].
  destruct (N.eq_dec d 43) as [->|H2]; [apply (K false v); intros [<-|H]; [lia|exact H]|].
  specialize (K false (d :: v) (fun x => x)).
  destruct d as [|p]; [exact K|]. do 6 (destruct p as [p|p|]; try exact K); exfalso; auto.
Qed.
