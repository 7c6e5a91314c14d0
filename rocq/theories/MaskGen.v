(** * Emitting elements without a method: what does not depend on the target *)
From Coq Require Import String List Arith NArith ZArith Bool Lia.
From Verif Require Import PyStr PyStrFacts Utils Res Entities HtmlTools HtmlToolsFacts HtmlTok HtmlParser MarkupTable TableFacts HtmlBase Html2X EmitFacts.
From Verif Require Import Spec2 TreeFacts Spec10 StripRun Spec11 CleanRun CleanDoc CleanEmit CleanGen Spec24.
Import ListNotations.
Open Scope N_scope.

(** names with an underscore are not names of tags *)
Lemma no_underscore : forall t x y, name_ok t = true -> str_eqb (x ++ 95 :: y) t = false.
Proof.
  intros t x y N. destruct (str_eqb (x ++ 95 :: y) t) eqn:E; [|reflexivity]. apply str_eqb_eq in E. subst t. exfalso. unfold name_ok in N. destruct x as [|c x]; [discriminate N|].
  cbn [app] in N. apply andb_true_iff in N as [_ N]. rewrite forallb_app in N. apply andb_true_iff in N as [_ N]. discriminate N.
Qed.
Lemma eqb_sym : forall t k, str_eqb t k = false -> str_eqb k t = false.
Proof. intros t k E. destruct (str_eqb k t) eqn:E2; [apply str_eqb_eq in E2; subst k; rewrite str_eqb_refl in E; discriminate E|reflexivity]. Qed.
(** the names of [ms] are those of block elements, of nodes, or the known ones *)
Lemma no_method : forall (ms : methods) (known : list str) t, inline_tag t = true -> existsb (str_eqb t) known = false ->
  forallb (fun k => in_names block_elements k || in_names [$ "script"; $ "style"; $ "tbody"; $ "img"; $ "a"; $ "data"; $ "entityref"; $ "charref"; $ "document"; $ "headline"] k || existsb (str_eqb k) known || existsb (N.eqb 95) k) (map fst ms) = true ->
  find_meth ms t = None.
Proof.
  intros ms known t HI HK HM. destruct (inline_parts t HI) as (N & _ & H3 & H4). rewrite forallb_forall in HM. apply find_none. intros k I. specialize (HM k I). apply eqb_sym.
  destruct (str_eqb t k) eqn:E; [|reflexivity]. exfalso. apply str_eqb_eq in E. subst k. rewrite !orb_true_iff in HM. destruct HM as [[[HM|HM]|HM]|HM].
  - congruence.
  - unfold in_names in HM. apply existsb_exists in HM as (k & I2 & E). apply H4 in I2. congruence.
  - congruence.
  - apply existsb_exists in HM as (c & I2 & E). apply N.eqb_eq in E. subst c. apply in_split in I2 as (x & y & ->). pose proof (no_underscore _ x y N) as X. rewrite str_eqb_refl in X. discriminate X.
Qed.

Section Emission.
Variable u : unknown.
Variable ms : methods.
Notation EL := (emit_list ms u no_pre).

(** emitting [ch] where line breaks are written [b] *)
Definition says_in (b : str) (ch : list hnode) (x : str) : Prop := forall anc s, brk s = b -> exists s', EL anc ch s = Ok (x, s') /\ core s' = core s.
Lemma in_nil : forall b, says_in b [] [].
Proof. intros b anc s _. exists s. split; reflexivity. Qed.
Lemma in_app : forall b m n x y, says_in b m x -> says_in b n y -> says_in b (m ++ n) (x ++ y).
Proof.
  intros b m n x y Hm Hn anc s B. rewrite el_app. destruct (Hm anc s B) as (s1 & E1 & C1). rewrite E1. cbn [bind]. destruct (Hn anc s1) as (s2 & E2 & C2); [rewrite (brk_core _ _ C1); exact B|]. rewrite E2. cbn [bind].
  exists s2. split; [reflexivity|]. congruence.
Qed.
Lemma in_leaf : forall k f c a l b x, find_meth ms k = Some f -> (forall anc kids s, brk s = b -> f (mkn k c a l anc) kids s = Ok (x, s)) -> says_in b [HN k c a l []] x.
Proof.
  intros k f c a l b x H F anc s B. rewrite el_one, (en_run u ms k f) by exact H. unfold node_run. rewrite F by exact B. cbn [bind]. exists (set_last (k, c) s). split; [reflexivity|apply core_last].
Qed.
Lemma in_body : forall t f a ch b x y, find_meth ms t = Some f ->
  (forall anc s s1 kids, kids s = Ok (x, s1) -> f (mkn t None a None anc) kids s = Ok (y, s1)) ->
  says_in b ch x -> says_in b [HN t None a None ch] y.
Proof.
  intros t f a ch b x y M F H anc s B. rewrite el_one. rewrite (en_run u ms t f) by exact M. unfold node_run.
  destruct (H (t :: anc) (set_last (t, None) s) B) as (s1 & E & C1).
  rewrite (F anc s s1); [|unfold kids_of; exact E]. cbn [bind].
  exists (set_last (t, None) s1). split; [reflexivity|]. rewrite core_last, C1. apply core_last.
Qed.
Lemma in_ref : forall b e ll, find_meth ms ($ "charref") = Some charref_emit -> find_meth ms ($ "entityref") = Some entityref_emit -> ref_ok e = true -> says_in b (dom_tree [] ll (x2d (XRef e))) (match meant e with Ok s => s | Exc _ => [] end).
Proof.
  intros b e ll MC ME H. destruct (ref_leaf e ll H) as (k & f & c & E & K & F). rewrite E. apply (in_leaf _ f); [destruct K as [[-> ->]|[-> ->]]; assumption|]. intros anc kids s _. apply F.
Qed.
Lemma in_unknown : forall b t a ch x y, find_meth ms t = None -> u t a x = Ok y -> says_in b ch x -> says_in b [HN t None a None ch] y.
Proof.
  intros b t a ch x y M HU H anc s B. rewrite el_one. rewrite emit_node_eq. unfold no_pre at 1. unfold run_meth. cbn [n_kind]. rewrite M. unfold kids_of.
  destruct (H (t :: anc) (set_last (t, None) s) B) as (s1 & E & C1). rewrite E. cbn [bind n_attrs]. rewrite HU. cbn [bind].
  exists (set_last (t, None) s1). split; [reflexivity|]. rewrite core_last, C1. apply core_last.
Qed.
Lemma in_span : forall b a ch x, find_meth ms ($ "span") = Some content_emit -> span_text x = true -> says_in b ch x -> says_in b [HN ($ "span") None a None ch] x.
Proof.
  intros b a ch x M Hx H. eapply in_body; [exact M| |exact H]. intros anc s s1 kids E. unfold content_emit. rewrite E. cbn [bind]. unfold content_text.
  match goal with |- context [in_list ?l ?k] => change (in_list l k) with false end. cbv zeta. rewrite (span_kept x Hx). reflexivity.
Qed.
End Emission.
Lemma says_all : forall u ms ch x, CleanGen.says u ms ch (fun _ => x) <-> forall b, says_in u ms b ch x.
Proof. intros u ms ch x. split; [intros H b anc s _; apply H|intros H anc s; exact (H _ anc s eq_refl)]. Qed.
