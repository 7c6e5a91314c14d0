(** * Facts about the string functions *)
From Coq Require Import String List Arith NArith ZArith Bool Lia.
From Verif Require Import PyStr.
Import ListNotations.
Open Scope N_scope.

Lemma str_eqb_eq : forall a b, str_eqb a b = true <-> a = b.
Proof.
  induction a as [|x a IH]; destruct b as [|y b]; split; intro H; try discriminate; auto.
  - apply andb_true_iff in H as [H1 H2]. apply N.eqb_eq in H1. apply IH in H2. congruence.
  - inversion H; subst. simpl. rewrite N.eqb_refl. apply IH. reflexivity.
Qed.
Lemma str_eqb_refl : forall a, str_eqb a a = true.
Proof. intro. apply str_eqb_eq. reflexivity. Qed.
Lemma str_eqb_neq : forall a b, str_eqb a b = false <-> a <> b.
Proof.
  intros a b. destruct (str_eqb a b) eqn:E.
  - apply str_eqb_eq in E. split; congruence.
  - split; [|reflexivity]. intros _ H. apply str_eqb_eq in H. congruence.
Qed.

(** replacing one character *)
Definition sub1 (c : char) (w : str) (x : char) : str := if c =? x then w else [x].
Lemma replace_single : forall c w s, replace [c] w s = flat_map (sub1 c w) s.
Proof.
  intros c w s. unfold replace. induction s as [|x s IH]; [reflexivity|].
  cbn [replace_go startswith]. rewrite andb_true_r. cbn [flat_map].
  change (sub1 c w x) with (if c =? x then w else [x]).
  destruct (c =? x); cbn [List.length pred]; rewrite IH; reflexivity.
Qed.

Lemma flat_map_flat_map : forall {A B C} (f : B -> list C) (g : A -> list B) l,
  flat_map f (flat_map g l) = flat_map (fun x => flat_map f (g x)) l.
Proof.
  intros. induction l; [reflexivity|]. simpl. rewrite flat_map_app, IHl. reflexivity.
Qed.

Lemma flat_map_ext' : forall {A B} (f g : A -> list B) l, (forall x, In x l -> f x = g x) ->
  flat_map f l = flat_map g l.
Proof.
  intros. induction l; [reflexivity|]. simpl. rewrite H by (left; reflexivity).
  rewrite IHl; [reflexivity|]. intros; apply H; right; assumption.
Qed.

Lemma flat_map_id : forall {A} (f : A -> list A) l, (forall x, In x l -> f x = [x]) -> flat_map f l = l.
Proof.
  intros. induction l; [reflexivity|]. simpl. rewrite H by (left; reflexivity). simpl.
  rewrite IHl; [reflexivity|]. intros; apply H; right; assumption.
Qed.

(** white space stripping *)
Lemma drop_while_split : forall p s, exists a, s = a ++ drop_while p s /\ forallb p a = true.
Proof.
  induction s as [|c s IH]; [exists []; auto|]. simpl. destruct (p c) eqn:E.
  - destruct IH as (a & H1 & H2). exists (c :: a). simpl. rewrite E, H2. split; [congruence | reflexivity].
  - exists []. auto.
Qed.
Lemma drop_while_head : forall p s c t, drop_while p s = c :: t -> p c = false.
Proof.
  induction s as [|x s IH]; intros c t H; [discriminate|]. simpl in H.
  destruct (p x) eqn:E; [eauto|]. inversion H; subst. exact E.
Qed.
Lemma drop_while_none : forall p c t, p c = false -> drop_while p (c :: t) = c :: t.
Proof. intros p c t H. simpl. rewrite H. reflexivity. Qed.
Lemma drop_while_all : forall p s, forallb p s = true -> drop_while p s = [].
Proof.
  induction s; simpl; [reflexivity|]. intro H. apply andb_true_iff in H as [-> H2]. auto.
Qed.
Lemma drop_while_app : forall p a b, forallb p a = true -> drop_while p (a ++ b) = drop_while p b.
Proof.
  induction a; simpl; intros b H; [reflexivity|]. apply andb_true_iff in H as [-> H2]. auto.
Qed.

Lemma rstrip_split : forall p s, exists a, s = rstrip_by p s ++ a /\ forallb p a = true.
Proof.
  induction s as [|c s IH]; [exists []; auto|]. simpl. destruct IH as (a & H1 & H2).
  destruct (rstrip_by p s) as [|x r] eqn:E.
  - simpl in H1. subst a. destruct (p c) eqn:Ec.
    + exists (c :: s). simpl. rewrite Ec, H2. auto.
    + exists s. auto.
  - exists a. rewrite H1. auto.
Qed.
Lemma rstrip_last : forall p s c t, rev (rstrip_by p s) = c :: t -> p c = false.
Proof.
  induction s as [|x s IH]; intros c t H; [discriminate|]. simpl in H.
  destruct (rstrip_by p s) as [|y r] eqn:E.
  - destruct (p x) eqn:Ex; [discriminate|]. inversion H; subst. exact Ex.
  - change (rev (x :: y :: r)) with (rev (y :: r) ++ [x]) in H.
    destruct (rev (y :: r)) as [|z q] eqn:E2.
    + apply (f_equal (@List.length _)) in E2. rewrite rev_length in E2. discriminate.
    + inversion H; subst. eapply IH. reflexivity.
Qed.
Lemma rstrip_app_all : forall p a b, forallb p b = true -> rstrip_by p (a ++ b) = rstrip_by p a.
Proof.
  intros p a b Hb. induction a as [|c a IH]; simpl.
  - induction b as [|x b IHb]; [reflexivity|]. simpl in Hb. apply andb_true_iff in Hb as [H1 H2].
    simpl. rewrite (IHb H2), H1. reflexivity.
  - rewrite IH. reflexivity.
Qed.
Lemma rstrip_keep : forall p a c, p c = false -> rstrip_by p (a ++ [c]) = a ++ [c].
Proof.
  intros p a c H. induction a as [|x a IH]; simpl.
  - rewrite H. reflexivity.
  - rewrite IH. destruct (a ++ [c]) eqn:E; [destruct a; discriminate | reflexivity].
Qed.
Lemma rstrip_nil_iff : forall p s, rstrip_by p s = [] -> forallb p s = true.
Proof.
  induction s as [|c s IH]; simpl; [reflexivity|]. intro H.
  destruct (rstrip_by p s) eqn:E; [|discriminate]. destruct (p c); [|discriminate]. apply IH. reflexivity.
Qed.

(** [strip] never leaves the characters at the ends *)
Lemma lstrip_rstrip_head : forall p s c t, rstrip_by p s = c :: t -> exists u, s = c :: u.
Proof.
  intros p s c t H. destruct s as [|x s]; [discriminate|]. simpl in H.
  destruct (rstrip_by p s); [destruct (p x)|]; inversion H; subst; eauto.
Qed.
Lemma strip_by_head : forall p s c t, strip_by p s = c :: t -> p c = false.
Proof.
  unfold strip_by, lstrip_by. intros p s c t H. apply lstrip_rstrip_head in H as [u H].
  eapply drop_while_head; eauto.
Qed.
Lemma strip_by_last : forall p s c t, rev (strip_by p s) = c :: t -> p c = false.
Proof. unfold strip_by. intros p s c t H. eapply rstrip_last; eauto. Qed.
Lemma strip_split : forall p s, exists a b, s = a ++ strip_by p s ++ b /\
  forallb p a = true /\ forallb p b = true.
Proof.
  intros p s. unfold strip_by, lstrip_by. destruct (drop_while_split p s) as (a & Ha & Hpa).
  destruct (rstrip_split p (drop_while p s)) as (b & Hb & Hpb).
  exists a, b. rewrite <- Hb, <- Ha. auto.
Qed.
(** a text without such characters at its ends is not changed *)
Lemma strip_by_id : forall p c s d, p c = false -> p d = false ->
  strip_by p (c :: s ++ [d]) = c :: s ++ [d].
Proof.
  intros p c s d Hc Hd. unfold strip_by, lstrip_by. rewrite drop_while_none by exact Hc.
  change (c :: s ++ [d]) with ((c :: s) ++ [d]). apply rstrip_keep. exact Hd.
Qed.

(** ** [escape] and [attr_escape] character by character *)
Definition esc_char (c : char) : str :=
  if c =? 38 then $ "&amp;" else if c =? 60 then $ "&lt;" else if c =? 62 then $ "&gt;" else [c].
Definition esc (s : str) : str := flat_map esc_char s.

Lemma escape_esc : forall s, escape s = esc s.
Proof.
  intro s. unfold escape, esc. rewrite !replace_single, !flat_map_flat_map.
  apply flat_map_ext'. intros x _. unfold sub1, esc_char.
  rewrite (N.eqb_sym 38 x).
  destruct (x =? 38) eqn:E1; [reflexivity|]. cbn [flat_map app].
  rewrite (N.eqb_sym 62 x).
  destruct (x =? 62) eqn:E2.
  - apply N.eqb_eq in E2; subst. reflexivity.
  - cbn [flat_map app]. rewrite (N.eqb_sym 60 x). destruct (x =? 60); reflexivity.
Qed.
Lemma escape_app : forall a b, escape (a ++ b) = escape a ++ escape b.
Proof. intros. rewrite !escape_esc. apply flat_map_app. Qed.
Lemma esc_app : forall a b, esc (a ++ b) = esc a ++ esc b.
Proof. intros. apply flat_map_app. Qed.

(** numbers are shown with decimal digits *)
Lemma digits_go_digits : forall f n acc, forallb (fun c => (48 <=? c) && (c <=? 57)) acc = true ->
  forallb (fun c => (48 <=? c) && (c <=? 57)) (digits_go f n acc) = true.
Proof.
  induction f; intros n acc H; [exact H|]. cbn [digits_go]. destruct (n <? 10) eqn:E.
  - cbn [forallb]. rewrite H, andb_true_r. apply N.ltb_lt in E.
    apply andb_true_iff; split; apply N.leb_le; lia.
  - apply IHf. cbn [forallb]. rewrite H, andb_true_r.
    assert (Hm : n mod 10 < 10) by (apply N.mod_lt; discriminate).
    generalize dependent (n mod 10). intros r Hm.
    apply andb_true_iff; split; apply N.leb_le; lia.
Qed.
Lemma show_N_digits : forall n, forallb (fun c => (48 <=? c) && (c <=? 57)) (show_N n) = true.
Proof. intro. apply digits_go_digits. reflexivity. Qed.
