(** * Emitting trees of clean documents: what does not depend on the target *)
From Coq Require Import String List Arith NArith ZArith Bool Lia.
From Verif Require Import PyStr PyStrFacts Utils Res Entities HtmlTools HtmlToolsFacts HtmlTok HtmlParser MarkupTable TableFacts HtmlBase Html2X EmitFacts.
From Verif Require Import Spec2 TreeFacts Spec10 StripRun Spec11 CleanRun CleanDoc.
Import ListNotations.
Open Scope N_scope.

Lemma ref_leaf : forall e ll, ref_ok e = true -> exists k f c, dom_tree [] ll (x2d (XRef e)) = [HN k c [] None []] /\
  (k = $ "charref" /\ f = charref_emit \/ k = $ "entityref" /\ f = entityref_emit) /\
  forall anc kids s, f (mkn k c [] None anc) kids s = Ok (match meant e with Ok s => s | Exc _ => [] end, s).
Proof.
  intros e ll H. unfold ref_ok in H. apply andb_true_iff in H as [H M]. destruct e as [t|d|d|n]; cbn [x2d dom_tree] in *.
  - discriminate H.
  - apply andb_true_iff in H as [H L]. unfold all_digits in H. apply andb_true_iff in H as [Hne Hd]. apply N.leb_le in L. apply negb_true_iff in Hne.
    do 3 eexists; split; [reflexivity|]; split; [left; split; reflexivity|]. intros anc kids s. unfold charref_emit. cbn [n_content].
    assert (E : replace_number d = meant (Dec d)).
    { unfold replace_number. rewrite (py_int_dec d); [|intros ->; discriminate Hne|exact Hd|exact L]. cbn [meant]. rewrite py_chr_N. destruct (code_point (dec_value d)); reflexivity. }
    destruct d as [|c d]; [discriminate Hne|].
    assert (Hc : (c =? 120) = false). { cbn [forallb] in Hd. apply andb_true_iff in Hd as [Hc _]. destruct (N.eqb_spec c 120); [subst c; discriminate Hc|reflexivity]. }
    assert (E2 : (match c :: d with 120 :: hex_no => replace_hex hex_no | _ => replace_number (c :: d) end) = replace_number (c :: d)).
    { apply N.eqb_neq in Hc. destruct c as [|p]; [reflexivity|]. repeat (destruct p as [p|p|]; try reflexivity). congruence. }
    rewrite E2, E. destruct (meant (Dec (c :: d))); [reflexivity|discriminate M].
  - unfold all_digits in H. apply andb_true_iff in H as [_ Hd]. do 3 eexists; split; [reflexivity|]; split; [left; split; reflexivity|]. intros anc kids s. unfold charref_emit. cbn [n_content].
    assert (E : replace_hex d = meant (Hex d)). { unfold replace_hex. rewrite (int16_hex d Hd), py_chr_N. cbn [meant]. destruct (code_point (hex_value d)); reflexivity. }
    rewrite E. destruct (meant (Hex d)); [reflexivity|discriminate M].
  - do 3 eexists; split; [reflexivity|]; split; [right; split; reflexivity|]. intros anc kids s. unfold entityref_emit. cbn [n_content].
    assert (E : replace_named n = meant (Named n)). { unfold replace_named. rewrite meant_named. cbn [meant]. destruct (str_eqb n ($ "nbsp")); [reflexivity|]. destruct (List.find _ name2codepoint_tab) as [[k v]|]; reflexivity. }
    rewrite E. destruct (meant (Named n)); [reflexivity|discriminate M].
Qed.

Section Emission.
Variable u : unknown.
Variable ms : methods.
Notation EL := (emit_list ms u no_pre).
Notation EN := (emit_node ms u no_pre).

(** all of the state but [last] *)
Definition core (s : est) : est := mke None (inner_list s) (tbl s) (subst_data s) (used_links s) (used_images s) (list_markup s).
Lemma core_last : forall l s, core (set_last l s) = core s. Proof. reflexivity. Qed.
Lemma core_inner : forall a b, core a = core b -> inner_list a = inner_list b. Proof. intros [] [] H. injection H. auto. Qed.
Lemma core_tbl : forall a b, core a = core b -> tbl a = tbl b. Proof. intros [] [] H. injection H. auto. Qed.
Definition brk (s : est) : str := match inner_list s with [] => [10] | _ => [92; 92] end.
Lemma brk_core : forall a b, core a = core b -> brk a = brk b. Proof. intros a b H. unfold brk. rewrite (core_inner _ _ H). reflexivity. Qed.

Lemma el_app : forall anc a b s, EL anc (a ++ b) s = do (r, s1) <- EL anc a s; do (r', s2) <- EL anc b s1; Ok (r ++ r', s2).
Proof.
  intros anc a b. induction a as [|x a IH]; intro s.
  - cbn [app emit_list bind]. destruct (EL anc b s) as [[r s1]|e]; reflexivity.
  - cbn [app emit_list]. destruct (EN anc x s) as [[r s1]|e]; [|reflexivity]. cbn [bind]. rewrite IH.
    destruct (EL anc a s1) as [[r2 s2]|e]; [|reflexivity]. cbn [bind]. destruct (EL anc b s2) as [[r3 s3]|e]; [|reflexivity]. cbn [bind]. rewrite <- app_assoc. reflexivity.
Qed.
Lemma el_one : forall anc x s, EL anc [x] s = do (r, s1) <- EN anc x s; Ok (r, s1).
Proof. intros. cbn [emit_list]. destruct (EN anc x s) as [[r s1]|e]; [|reflexivity]. cbn [bind]. rewrite app_nil_r. reflexivity. Qed.
Definition node_run (k : str) (f : meth) (a : pydict) (l : option Z) (c : option str) (ch : list hnode) (anc : list str) (s : est) : res (str * est) :=
  do (r, s2) <- f (mkn k c a l anc) (kids_of ms u no_pre anc k c ch) s; Ok (r, set_last (k, c) s2).
Lemma en_run : forall k f a l c ch anc s, find_meth ms k = Some f -> EN anc (HN k c a l ch) s = node_run k f a l c ch anc s.
Proof. intros k f a l c ch anc s H. rewrite emit_node_eq. unfold no_pre at 1. unfold run_meth. cbn [n_kind]. rewrite H. reflexivity. Qed.

(** ** inline *)
Definition says (n : list hnode) (b : est -> str) : Prop := forall anc s, exists s', EL anc n s = Ok (b s, s') /\ core s' = core s.
Lemma says_app : forall m n bm bn, says m bm -> says n bn -> (forall a b, core a = core b -> bn a = bn b) -> says (m ++ n) (fun s => bm s ++ bn s).
Proof.
  intros m n bm bn Hm Hn C anc s. rewrite el_app. destruct (Hm anc s) as (s1 & E1 & C1). rewrite E1. cbn [bind]. destruct (Hn anc s1) as (s2 & E2 & C2). rewrite E2. cbn [bind].
  exists s2. rewrite (C _ _ C1). split; [reflexivity|]. congruence.
Qed.
Lemma says_around : forall t f o c ch b a, find_meth ms t = Some f -> (forall kids anc s, f (mkn t None a None anc) kids s = do (r, s1) <- kids s; Ok (o ++ r ++ c, s1)) ->
  says ch b -> (forall x y, core x = core y -> b x = b y) -> says [HN t None a None ch] (fun s => o ++ b s ++ c).
Proof.
  intros t f o c ch b a M F H C anc s. rewrite el_one. rewrite (en_run t f) by exact M. unfold node_run. rewrite F. unfold kids_of. destruct (H (t :: anc) (set_last (t, None) s)) as (s1 & E & C1). rewrite E. cbn [bind].
  exists (set_last (t, None) s1). split; [rewrite (C (set_last (t, None) s) s) by apply core_last; reflexivity|]. rewrite core_last, C1. apply core_last.
Qed.
Lemma says_leaf : forall k f c a l b, find_meth ms k = Some f -> (forall anc kids s, f (mkn k c a l anc) kids s = Ok (b s, s)) -> says [HN k c a l []] b.
Proof.
  intros k f c a l b H F anc s. rewrite el_one, (en_run k f) by exact H. unfold node_run. rewrite F. cbn [bind]. exists (set_last (k, c) s). split; [reflexivity|apply core_last].
Qed.
Lemma ref_says : forall e ll, find_meth ms ($ "charref") = Some charref_emit -> find_meth ms ($ "entityref") = Some entityref_emit -> ref_ok e = true -> says (dom_tree [] ll (x2d (XRef e))) (fun _ => match meant e with Ok s => s | Exc _ => [] end).
Proof.
  intros e ll MC ME H. destruct (ref_leaf e ll H) as (k & f & c & E & K & F). rewrite E. apply (says_leaf _ f); [destruct K as [[-> ->]|[-> ->]]; assumption|exact F].
Qed.
End Emission.
