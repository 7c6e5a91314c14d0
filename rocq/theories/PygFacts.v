(** * Documents with the example macros and pygments *)
From Coq Require Import String List Arith NArith ZArith Bool Lia.
From Verif Require Import PyStr PyStrFacts Utils Res HtmlEmitter Spec4 Spec5 Spec7 Spec20 Spec38 ExampleMacros ExampleFacts DictFacts MacroDoc TableFacts.
Import ListNotations.
Open Scope N_scope.

Lemma no_dot_in : forall w, no_char [46] w = true -> ~ In 46 w.
Proof. intros w H I. unfold no_char in H. rewrite forallb_forall in H. specialize (H _ I). discriminate H. Qed.
Lemma no_dot_ex : forall w, no_char [46] w = true -> existsb (N.eqb 46) w = false.
Proof. intros w H. apply not_true_is_false. intro E. apply existsb_exists in E as (x & I & E). apply N.eqb_eq in E. subst x. exact (no_dot_in _ H I). Qed.
Lemma dot_ex : forall e a b, strip e = a ++ 46 :: b -> existsb (N.eqb 46) e = true.
Proof.
  intros e a b E. apply existsb_exists. exists 46. split; [|reflexivity].
  assert (I : In 46 (strip e)) by (rewrite E; apply in_or_app; right; left; reflexivity).
  destruct (strip_split is_space e) as (u & w & E2 & _); rewrite E2. apply in_or_app. right. apply in_or_app. left. exact I.
Qed.
Lemma language_type : forall e s, language e s -> source_type (VStr e) = Datatypes.inl s.
Proof.
  intros e s H. destruct H as [e H|e a b E A B|e a b r E A B]; unfold source_type.
  - rewrite (no_dot_ex e H). reflexivity.
  - change (strip e = a ++ 46 :: b) in E. rewrite (dot_ex e a b E). assert (X : split_on 46 (strip e) = [a; b]) by (rewrite E; etransitivity; [exact (split_on_app 46 a b (no_dot_in a A))|f_equal; exact (split_on_no 46 b (no_dot_in b B))]). rewrite X. reflexivity.
  - change (strip e = a ++ 46 :: (b ++ 46 :: r)) in E. rewrite (dot_ex e a _ E). assert (X : split_on 46 (strip e) = a :: b :: split_on 46 r) by (rewrite E; etransitivity; [exact (split_on_app 46 a _ (no_dot_in a A))|f_equal; exact (split_on_app 46 b r (no_dot_in b B))]). rewrite X. reflexivity.
Qed.
Lemma lexed_get : forall p s l, lexed p s l -> get_lexer p s = Datatypes.inl l.
Proof. intros p s l H. unfold get_lexer. destruct H as [l ->|l -> ->]; reflexivity. Qed.
Lemma breaks_replace : forall h, replace [10] ($ "<br />" ++ [10]) h = html_breaks h.
Proof.
  intro h. rewrite replace_single. unfold html_breaks. apply flat_map_ext. intro c. unfold sub1. rewrite N.eqb_sym. reflexivity.
Qed.
Lemma code_kw : forall q e t kw, call_means (mkmc ($ "code") [mkarg ($ "ext") q e] t) kw ->
  unexpected [$ "ext"; $ "text"] kw = None /\ dict_get ($ "text") kw = Some (VStr (strip t)) /\ exists x, dict_get ($ "ext") kw = Some x /\ reads_as e x.
Proof.
  intros q e t kw (Ht & Hk). split; [|split; [exact Ht|exact (Hk ($ "ext") ltac:(discriminate))]]. apply unexpected_none. intros k Hx. cbn [existsb] in Hx. rewrite orb_false_r in Hx.
  apply orb_false_iff in Hx as [H1 H2]. specialize (Hk k). cbn [mc_args arg_value a_key a_val] in Hk. rewrite H1 in Hk. apply Hk. apply str_eqb_neq. exact H2.
Qed.
Lemma reads_same : forall e x y, reads_as e x -> reads_as e y -> x = y.
Proof.
  intros e x y H1 H2. destruct H1; inversion H2; subst; try reflexivity; try discriminate; unfold not_a_number in *; rewrite ?NumeralFacts.number_iff, ?NumeralFacts.no_number in *; congruence.
Qed.
Lemma shown_answer : forall p v m a kw l, shown_macro p v m a -> call_means m kw -> answer v (example_env_with p) l (mc_name m) kw = Some a.
Proof.
  intros p v m a kw l H Hc.
  assert (C : forall q e t, m = mkmc ($ "code") [mkarg ($ "ext") q e] t -> forall x, reads_as e x -> u_call (example_env_with p) l ($ "code") kw =
    match source_type x with Datatypes.inr msg => MTypeError msg | Datatypes.inl s => match get_lexer p s with Datatypes.inr o => o | Datatypes.inl lx => painted p lx (Some (strip t)) end end).
  { intros q e t -> x R. destruct (code_kw q e t kw Hc) as (U & T & x' & X & R'). rewrite (reads_same e x x' R R').
    change (u_call (example_env_with p) l ($ "code") kw) with (code_macro_with p kw). unfold code_macro_with. rewrite U, X, T. reflexivity. }
  destruct H as [t|t|q e t lang lx h R La Le Hi|q e t lang lx R La Le Hi|q e t lang msg R La Le Hi|q e z t R V]; unfold answer; cbn [mc_name].
  - destruct Hc as (Ht & Hk). cbn [mc_args mc_text] in *. change (u_has (example_env_with p) ($ "html")) with true. change (u_call (example_env_with p) l ($ "html") kw) with (html_macro kw). unfold html_macro. rewrite unexpected_none.
    + rewrite Ht. reflexivity.
    + intros k Hx. cbn [existsb] in Hx. rewrite orb_false_r in Hx. apply (Hk k). apply str_eqb_neq. exact Hx.
  - destruct Hc as (Ht & Hk). cbn [mc_args mc_text] in *. change (u_has (example_env_with p) ($ "pre")) with true. change (u_call (example_env_with p) l ($ "pre") kw) with (pre_macro kw). unfold pre_macro. rewrite unexpected_none.
    + unfold pre_body. rewrite Ht. reflexivity.
    + intros k Hx. cbn [existsb] in Hx. rewrite orb_false_r in Hx. apply (Hk k). apply str_eqb_neq. exact Hx.
  - change (u_has (example_env_with p) ($ "code")) with true. rewrite (C q e t eq_refl _ R), (language_type e lang La), (lexed_get p lang lx Le). unfold painted. rewrite Hi, breaks_replace. reflexivity.
  - change (u_has (example_env_with p) ($ "code")) with true. rewrite (C q e t eq_refl _ R), (language_type e lang La), (lexed_get p lang lx Le). unfold painted. rewrite Hi, breaks_replace. reflexivity.
  - change (u_has (example_env_with p) ($ "code")) with true. rewrite (C q e t eq_refl _ R), (language_type e lang La). unfold get_lexer. rewrite Le, Hi. reflexivity.
  - change (u_has (example_env_with p) ($ "code")) with true. rewrite (C q e t eq_refl _ R). cbn [source_type]. apply Z.ltb_ge in V. rewrite V. reflexivity.
Qed.
Lemma shown_pieces : forall p blog s v d t, shown_doc p blog s v d t -> forall kws l, Forall2 call_means (macros_of d) kws -> exists l', html_pieces blog s v (example_env_with p) d kws l = Some (t, l').
Proof.
  intros p blog s v d t H. induction H as [|b r t H IH|m a r t Hm H IH]; intros kws l Hk.
  - exists l. reflexivity.
  - destruct (IH kws l Hk) as (l' & E). exists l'. cbn [html_pieces]. rewrite E. reflexivity.
  - cbn [macros_of] in Hk. inversion Hk as [|m' kw ms kws' Hkw Hks]; subst. cbn [html_pieces]. rewrite (shown_answer p v m a kw l Hm Hkw).
    destruct (IH kws' (called (example_env_with p) l (mc_name m) kw) Hks) as (l' & E). exists l'. rewrite E. reflexivity.
Qed.
Lemma lemma_C89 : forall p blog v s d t, pieces_ok blog d = true -> shown_doc p blog s v d t ->
  fst (creole2html (mkopts blog (Some v) s) (example_md_with p) (wr_pieces d)) = Ok (strip t).
Proof.
  intros p blog v s d t Hd Ht. destruct (pieces_spec blog d Hd) as (kws & Hk & E).
  destruct (shown_pieces p blog s v d t Ht kws [] Hk) as (l' & El). rewrite (E (Some v) s (example_md_with p) t l' El). reflexivity.
Qed.
