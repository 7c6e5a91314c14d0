(** * Documents with the example macros *)
From Coq Require Import String List Arith NArith ZArith Bool Lia.
From Verif Require Import PyStr PyStrFacts Utils Res HtmlEmitter Spec4 Spec5 Spec7 Spec20 Spec21 ExampleMacros DictFacts MacroDoc.
Import ListNotations.
Open Scope N_scope.

Lemma unexpected_none : forall params kw, (forall k, existsb (str_eqb k) params = false -> dict_get k kw = None) -> unexpected params kw = None.
Proof.
  intros params kw H. unfold unexpected. match goal with |- match ?x with _ => _ end = _ => destruct x as [[k v]|] eqn:E; [|reflexivity] end.
  exfalso. apply find_some in E as [E1 E2]. cbn [fst] in E2. apply negb_true_iff in E2. specialize (H k E2). clear E2 params.
  induction kw as [|[k' v'] kw IH]; [exact E1|]. cbn [dict_get] in H. destruct (str_eqb k k') eqn:Ek; [discriminate|]. destruct E1 as [E1|E1]; [|exact (IH H E1)].
  injection E1 as <- <-. rewrite str_eqb_refl in Ek. discriminate.
Qed.
(** a dictionary with one key that is no parameter *)
Lemma unexpected_one : forall params kw k, existsb (str_eqb k) params = false -> dict_get k kw <> None ->
  (forall k', k' <> k -> existsb (str_eqb k') params = false -> dict_get k' kw = None) -> unexpected params kw = Some k.
Proof.
  intros params kw k Hk Hin Ho. unfold unexpected.
  match goal with |- match ?x with _ => _ end = _ => destruct x as [[k0 v0]|] eqn:E end.
  - apply find_some in E as [E1 E2]. cbn [fst] in E2. apply negb_true_iff in E2. destruct (str_eqb k0 k) eqn:Ek; [apply str_eqb_eq in Ek; congruence|].
    apply str_eqb_neq in Ek. specialize (Ho k0 Ek E2). exfalso. revert E1 Ho. clear. induction kw as [|[k' v'] kw IH]; [intros []|].
    cbn [dict_get]. destruct (str_eqb k0 k') eqn:E; [discriminate|]. intros [H|H]; [|exact (IH H)]. injection H as -> ->. rewrite str_eqb_refl in E. discriminate.
  - exfalso. apply Hin. assert (N : forall x, In x kw -> negb (existsb (str_eqb (fst x)) params) = false) by (intros x Hx; exact (find_none _ _ E x Hx)).
    revert N. clear - Hk. induction kw as [|[k' v'] kw IH]; [reflexivity|]. intro N. cbn [dict_get]. destruct (str_eqb k k') eqn:E.
    + apply str_eqb_eq in E. subst k'. specialize (N (k, v') (or_introl eq_refl)). cbn [fst] in N. rewrite Hk in N. discriminate.
    + apply IH. intros x Hx. apply N. right. exact Hx.
Qed.
Lemma example_answer : forall m a kw v l, example_macro v m a -> call_means m kw -> answer v example_env l (mc_name m) kw = Some (a ++ [10]).
Proof.
  intros m a kw v l H (Ht & Hk). destruct H as [t|t|q w t|f k q w t Hf Hkt Hke Hn]; unfold answer; cbn [mc_name mc_args mc_text] in *.
  - change (u_has example_env ($ "html")) with true. change (u_call example_env l ($ "html") kw) with (html_macro kw). unfold html_macro. rewrite unexpected_none.
    + rewrite Ht. reflexivity.
    + intros k Hx. cbn [existsb] in Hx. rewrite orb_false_r in Hx. apply (Hk k). apply str_eqb_neq. exact Hx.
  - change (u_has example_env ($ "pre")) with true. change (u_call example_env l ($ "pre") kw) with (pre_macro kw). unfold pre_macro. rewrite unexpected_none.
    + unfold pre_body. rewrite Ht. reflexivity.
    + intros k Hx. cbn [existsb] in Hx. rewrite orb_false_r in Hx. apply (Hk k). apply str_eqb_neq. exact Hx.
  - change (u_has example_env ($ "code")) with true. change (u_call example_env l ($ "code") kw) with (code_macro kw). unfold code_macro. rewrite unexpected_none.
    + destruct (Hk ($ "ext") ltac:(discriminate)) as (p & -> & _). unfold pre_body. rewrite Ht. reflexivity.
    + intros k Hx. cbn [existsb] in Hx. rewrite orb_false_r in Hx. apply orb_false_iff in Hx as [H1 H2]. specialize (Hk k). cbn [arg_value a_key a_val] in Hk. rewrite H1 in Hk. apply Hk. apply str_eqb_neq. exact H2.
  - assert (U : forall ps, existsb (str_eqb k) ps = false -> existsb (str_eqb ($ "text")) ps = true -> unexpected ps kw = Some k).
    { intros ps Hp Htx. apply unexpected_one; [exact Hp| |].
      - specialize (Hk k Hkt). cbn [arg_value a_key a_val] in Hk. rewrite str_eqb_refl in Hk. destruct Hk as (p & -> & _). discriminate.
      - intros k' Hne Hx. assert (Hk' : k' <> $ "text") by (intros ->; congruence). specialize (Hk k' Hk'). cbn [arg_value a_key a_val] in Hk.
        replace (str_eqb k' k) with false in Hk by (symmetry; apply str_eqb_neq; exact Hne). exact Hk. }
    assert (Hx : str_eqb k ($ "text") = false) by (apply str_eqb_neq; exact Hkt).
    assert (C : forall msg, complaint v msg = $ "[Error: " ++ msg ++ $ "]" ++ [10]) by (intro msg; destruct Hn as [-> | ->]; reflexivity).
    assert (Lv : (2 <? v)%Z = false) by (destruct Hn as [-> | ->]; reflexivity).
    destruct Hf as [<-|[<-|[<-|[]]]].
    + change (u_has example_env ($ "html")) with true. change (u_call example_env l ($ "html") kw) with (html_macro kw). unfold html_macro.
      rewrite U by (cbn [existsb]; rewrite ?Hx; reflexivity). cbv iota. rewrite Lv, C. unfold unexpected_msg. rewrite <- !app_assoc. reflexivity.
    + change (u_has example_env ($ "pre")) with true. change (u_call example_env l ($ "pre") kw) with (pre_macro kw). unfold pre_macro.
      rewrite U by (cbn [existsb]; rewrite ?Hx; reflexivity). cbv iota. rewrite Lv, C. unfold unexpected_msg. rewrite <- !app_assoc. reflexivity.
    + assert (He : str_eqb k ($ "ext") = false) by (apply str_eqb_neq, Hke; reflexivity).
      change (u_has example_env ($ "code")) with true. change (u_call example_env l ($ "code") kw) with (code_macro kw). unfold code_macro.
      rewrite U by (cbn [existsb]; rewrite ?Hx, ?He; reflexivity). cbv iota. rewrite Lv, C. unfold unexpected_msg. rewrite <- !app_assoc. reflexivity.
Qed.
Lemma example_pieces : forall blog s v d t, example_doc blog s v d t -> forall kws l, Forall2 call_means (macros_of d) kws -> exists l', html_pieces blog s v example_env d kws l = Some (t, l').
Proof.
  intros blog s v d t H. induction H as [|b r t H IH|m a r t Hm H IH]; intros kws l Hk.
  - exists l. reflexivity.
  - destruct (IH kws l Hk) as (l' & E). exists l'. cbn [html_pieces]. rewrite E. reflexivity.
  - cbn [macros_of] in Hk. inversion Hk as [|m' kw ms kws' Hkw Hks]; subst. cbn [html_pieces]. rewrite (example_answer m a kw v l Hm Hkw).
    destruct (IH kws' (called example_env l (mc_name m) kw) Hks) as (l' & E). exists l'. rewrite E. rewrite <- app_assoc. reflexivity.
Qed.
Lemma lemma_C69 : forall blog v s d t, pieces_ok blog d = true -> example_doc blog s (match v with None => 1%Z | Some v => v end) d t ->
  fst (creole2html (mkopts blog v s) example_md (wr_pieces d)) = Ok (strip t).
Proof.
  intros blog v s d t Hd Ht. destruct (pieces_spec blog d Hd) as (kws & Hk & E).
  destruct (example_pieces blog s (match v with None => 1%Z | Some v => v end) d t Ht kws [] Hk) as (l' & El). rewrite (E v s example_md t l' El). reflexivity.
Qed.
