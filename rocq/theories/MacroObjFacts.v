(** * Macros of any kind: both models of the emitter agree *)
From Coq Require Import String List Arith NArith ZArith Bool Lia.
From Verif Require Import PyStr PyStrFacts Utils Res GNames DocTree CreoleParser HtmlEmitter ParserFacts EmitterFacts MacroObj Spec20 Spec22 Spec46.
Import ListNotations.
Open Scope N_scope.

Fixpoint memit_children (c : mcfg) (h : hdr) (l : list node) (s : mst) : res str * mst :=
  match l with
  | [] => (Ok [], s)
  | x :: r =>
    match memit_node c h x s with
    | (Ok a, s1) => match memit_children c h r s1 with (Ok b, s2) => (Ok (a ++ b), s2) | (Exc e, s2) => (Exc e, s2) end
    | (Exc e, s1) => (Exc e, s1)
    end
  end.
(** what a node does, apart from macros and headings: fail, a text, or a frame around its children *)
Inductive job := JFail | JText (t : str) | JFrame (f : str -> str) | JHead (t : str) | JMacro.
Definition job_of (strict : bool) (par h : hdr) (ch : list node) : job :=
  let with_content (f : str -> job) : job := match hcontent h with Some t => f t | None => JFail end in
  match hk h with
  | KDocument => JFrame (fun x => x)
  | KText => with_content (fun t => JText (escape t))
  | KSeparator => JText ($ "<hr />" ++ [10])
  | KParagraph => JFrame (fun x => $ "<p>" ++ x ++ $ "</p>" ++ [10])
  | KBulletList => JFrame (list_emit par h ($ "ul"))
  | KNumberList => JFrame (list_emit par h ($ "ol"))
  | KListItem => JFrame (list_emit par h ($ "li"))
  | KTable => JFrame (fun x => $ "<table>" ++ [10] ++ x ++ $ "</table>" ++ [10])
  | KTableRow => JFrame (fun x => $ "<tr>" ++ [10] ++ x ++ $ "</tr>" ++ [10])
  | KTableCell => JFrame (fun x => [9] ++ $ "<td>" ++ x ++ $ "</td>" ++ [10])
  | KTableHead => JFrame (fun x => [9] ++ $ "<th>" ++ x ++ $ "</th>" ++ [10])
  | KEmphasis => JFrame (tag ($ "i"))
  | KStrong => JFrame (tag ($ "strong"))
  | KMonospace => JFrame (tag ($ "tt"))
  | KSuperscript => JFrame (tag ($ "sup"))
  | KSubscript => JFrame (tag ($ "sub"))
  | KUnderline => JFrame (tag ($ "u"))
  | KSmall => JFrame (tag ($ "small"))
  | KDelete => JFrame (tag ($ "del"))
  | KHeader => with_content JHead
  | KLink => with_content (fun target => match ch with
      | [] => JText ($ "<a href=""" ++ attr_escape target ++ $ """>" ++ escape target ++ $ "</a>")
      | _ => JFrame (fun inside => $ "<a href=""" ++ attr_escape target ++ $ """>" ++ inside ++ $ "</a>") end)
  | KImage => with_content (fun target => JText (image_emit (mkcfg 0 strict no_macros false) target h ch))
  | KMacroInline | KMacroBlock => JMacro
  | KBreak => JText (break_emit par)
  | KLine => JText [10]
  | KPreBlock => with_content (fun t => JText ($ "<pre>" ++ escape t ++ $ "</pre>" ++ [10]))
  | KPreInline => with_content (fun t => JText ($ "<code>" ++ escape t ++ $ "</code>"))
  end.
Lemma wrap_id : forall r, wrap (fun x => x) r = r. Proof. intros [[a|e] s]; reflexivity. Qed.
Lemma mwrap_id : forall r, mwrap (fun x => x) r = r. Proof. intros [[a|e] s]; reflexivity. Qed.
Lemma emit_job : forall c par h ch s, emit_node c par (Nd h ch) s =
  match job_of (strict c) par h ch with
  | JFail => (Exc EAttributeError, s)
  | JText t => (Ok t, s)
  | JFrame f => wrap f (emit_children c h ch s)
  | JHead t => header_emit c h t s
  | JMacro => macro_emit c h s
  end.
Proof.
  intros c par h ch s. rewrite emit_node_eq. cbv zeta. unfold job_of.
  destruct (hk h); try reflexivity; try (destruct (hcontent h); reflexivity).
  - symmetry. apply wrap_id.
  - destruct (hcontent h) as [t|]; [|reflexivity]. destruct ch; reflexivity.
Qed.
Lemma memit_job : forall c par h ch s, memit_node c par (Nd h ch) s =
  match job_of (m_strict c) par h ch with
  | JFail => (Exc EAttributeError, s)
  | JText t => (Ok t, s)
  | JFrame f => mwrap f (memit_children c h ch s)
  | JHead t => mheader_emit c h t s
  | JMacro => mmacro_emit c h s
  end.
Proof.
  intros c par h ch s. cbn [memit_node].
  match goal with |- context [(?f ch s)] => assert (E : forall l s, f l s = memit_children c h l s) end.
  { induction l as [|x l IH]; intro s0; [reflexivity|]. cbn [memit_children]. destruct (memit_node c h x s0) as [[a|e] s1]; [|reflexivity]. rewrite IH. reflexivity. }
  rewrite <- (E ch s). unfold job_of. destruct (hk h); try reflexivity; try (destruct (hcontent h); reflexivity).
  - symmetry. apply mwrap_id.
  - destruct (hcontent h) as [t|]; [|reflexivity]. destruct ch; reflexivity.
Qed.

(** ** two runs with macros of any kind *)
Section Two.
Variables (c1 c2 : mcfg) (R : mst -> mst -> Prop).
Hypothesis ST : m_strict c1 = m_strict c2.
Hypothesis RM : forall h s1 s2, R s1 s2 -> fst (mmacro_emit c1 h s1) = fst (mmacro_emit c2 h s2) /\ R (snd (mmacro_emit c1 h s1)) (snd (mmacro_emit c2 h s2)).
Hypothesis RH : forall h t s1 s2, R s1 s2 -> fst (mheader_emit c1 h t s1) = fst (mheader_emit c2 h t s2) /\ R (snd (mheader_emit c1 h t s1)) (snd (mheader_emit c2 h t s2)).
Lemma two_node : forall n par s1 s2, R s1 s2 -> fst (memit_node c1 par n s1) = fst (memit_node c2 par n s2) /\ R (snd (memit_node c1 par n s1)) (snd (memit_node c2 par n s2)).
Proof.
  induction n as [h ch IH] using node_ind'. intros par s1 s2 H. rewrite !memit_job, ST.
  assert (K : fst (memit_children c1 h ch s1) = fst (memit_children c2 h ch s2) /\ R (snd (memit_children c1 h ch s1)) (snd (memit_children c2 h ch s2))).
  { revert s1 s2 H. induction IH as [|x ch Hx _ IHc]; intros s1 s2 H; [split; [reflexivity|exact H]|]. cbn [memit_children]. destruct (Hx h s1 s2 H) as [E1 E2].
    destruct (memit_node c1 h x s1) as [r1 s1'], (memit_node c2 h x s2) as [r2 s2']. cbn [fst snd] in *. subst r2. destruct r1 as [a|e]; [|split; [reflexivity|exact E2]].
    destruct (IHc s1' s2' E2) as [E3 E4]. destruct (memit_children c1 h ch s1') as [r3 s3], (memit_children c2 h ch s2') as [r4 s4]. cbn [fst snd] in *. subst r4. destruct r3; split; auto. }
  destruct (job_of (m_strict c2) par h ch) as [|t|f|t|]; [split; [reflexivity|exact H]|split; [reflexivity|exact H]| |apply RH; exact H|apply RM; exact H].
  destruct K as [K1 K2]. destruct (memit_children c1 h ch s1) as [r1 s1'], (memit_children c2 h ch s2) as [r2 s2']. cbn [fst snd] in *. subst r2. destruct r1; split; auto.
Qed.
End Two.

(** ** one run of each model *)
Section Both.
Variables (c2 : mcfg) (c1 : cfg) (R : mst -> est -> Prop).
Hypothesis ST : m_strict c2 = strict c1.
Hypothesis RM : forall h s2 s1, R s2 s1 -> fst (mmacro_emit c2 h s2) = fst (macro_emit c1 h s1) /\ R (snd (mmacro_emit c2 h s2)) (snd (macro_emit c1 h s1)).
Hypothesis RH : forall h t s2 s1, R s2 s1 -> fst (mheader_emit c2 h t s2) = fst (header_emit c1 h t s1) /\ R (snd (mheader_emit c2 h t s2)) (snd (header_emit c1 h t s1)).
Lemma both_node : forall n par s2 s1, R s2 s1 -> fst (memit_node c2 par n s2) = fst (emit_node c1 par n s1) /\ R (snd (memit_node c2 par n s2)) (snd (emit_node c1 par n s1)).
Proof.
  induction n as [h ch IH] using node_ind'. intros par s1 s2 H. rewrite memit_job, emit_job, ST.
  assert (K : fst (memit_children c2 h ch s1) = fst (emit_children c1 h ch s2) /\ R (snd (memit_children c2 h ch s1)) (snd (emit_children c1 h ch s2))).
  { revert s1 s2 H. induction IH as [|x ch Hx _ IHc]; intros s1 s2 H; [split; [reflexivity|exact H]|]. cbn [memit_children emit_children]. destruct (Hx h s1 s2 H) as [E1 E2].
    destruct (memit_node c2 h x s1) as [r1 s1'], (emit_node c1 h x s2) as [r2 s2']. cbn [fst snd] in *. subst r2. destruct r1 as [a|e]; [|split; [reflexivity|exact E2]].
    destruct (IHc s1' s2' E2) as [E3 E4]. destruct (memit_children c2 h ch s1') as [r3 s3], (emit_children c1 h ch s2') as [r4 s4]. cbn [fst snd] in *. subst r4. destruct r3; split; auto. }
  destruct (job_of (strict c1) par h ch) as [|t|f|t|]; [split; [reflexivity|exact H]|split; [reflexivity|exact H]| |apply RH; exact H|apply RM; exact H].
  destruct K as [K1 K2]. destruct (memit_children c2 h ch s1) as [r1 s1'], (emit_children c1 h ch s2) as [r2 s2']. cbn [fst snd] in *. subst r2. destruct r1; split; auto.
Qed.
End Both.

(** ** the dict that does the same *)
Section AsDict.
Variables (m : mval) (v : Z) (st ut : bool).
Let c2 := mkmcfg v st m ut.
Let c1 := mkcfg v st (as_dict m) ut.
Definition agree (s2 : mst) (s1 : est) : Prop :=
  toc s1 = as_toc (m_toc s2) /\ m_log s2 = real_calls m (log s1) /\ (m_toc s2 = mv_get m ($ "toc") \/ exists t, m_toc s2 = Some (TocEntry t)).
Lemma real_app : forall a b, real_calls m (a ++ b) = real_calls m a ++ real_calls m b. Proof. intros. apply filter_app. Qed.
Lemma merror_agree : forall text e s2 s1, agree s2 s1 -> fst (merror c2 text e s2) = Ok (error c1 text) /\ agree (snd (merror c2 text e s2)) s1.
Proof. intros text e s2 s1 H. split; [reflexivity|]. unfold merror. destruct e as [t|]; [|exact H]. cbn [snd]. destruct (1 <? m_verbose c2)%Z; [|exact H]. exact H. Qed.
Lemma mtype_agree : forall n msg s2 s1, agree s2 s1 ->
  fst (mtype_error c2 n msg s2) = (if (2 <? v)%Z then Exc ETypeError else Ok (error c1 ($ "Macro '" ++ n ++ $ "' error: " ++ msg))) /\ agree (snd (mtype_error c2 n msg s2)) s1.
Proof. intros n msg s2 s1 H. unfold mtype_error. change (m_verbose c2) with v. destruct (2 <? v)%Z; [split; [reflexivity|exact H]|]. apply merror_agree. exact H. Qed.
Lemma logged : forall n kw s2 s1, agree s2 s1 -> callable_in m n = true -> agree (mkmst (m_toc s2) (m_log s2 ++ [(n, kw)]) (m_err s2)) (mkest (toc s1) (log s1 ++ [(n, kw)])).
Proof. intros n kw s2 s1 (A & B & C) H. split; [exact A|]. split; [|exact C]. cbn [m_log log]. rewrite real_app, <- B. unfold real_calls at 1. cbn [filter fst]. rewrite H. reflexivity. Qed.
Lemma unlogged : forall n kw s2 s1, agree s2 s1 -> callable_in m n = false -> agree s2 (mkest (toc s1) (log s1 ++ [(n, kw)])).
Proof. intros n kw s2 s1 (A & B & C) H. split; [exact A|]. split; [|exact C]. cbn [m_log log]. rewrite real_app, <- B. unfold real_calls at 1. cbn [filter fst]. rewrite H, app_nil_r. reflexivity. Qed.
(** a macro that is not the table of contents *)
Lemma user_agree : forall n kw blk s2 s1, agree s2 s1 ->
  let r2 := match (match mv_get m n with Some (TocEntry _) => Some CallEntry | e => e end) with
    | None => merror c2 ($ "Macro '" ++ n ++ $ "' doesn't exist") (Some (match mv_holder m with InDict => TrKey n | InObject _ => TrAttr n end)) s2
    | Some VoidEntry => merror c2 ($ "Macro '" ++ n ++ $ "' doesn't exist") None s2
    | Some (PlainEntry cls) => mtype_error c2 n ($ "'" ++ cls ++ $ "' object is not callable") s2
    | Some (TocEntry t) => (Exc EOther, s2)
    | Some CallEntry =>
      let s' := mkmst (m_toc s2) (m_log s2 ++ [(n, kw)]) (m_err s2) in
      match mv_call m (m_log s2) n kw with
      | MRet r => (Ok (blk r), s')
      | MNonStr d => merror c2 ($ "Macro '" ++ n ++ $ "' doesn't return a unicode string!" ++ (if (1 <? v)%Z then d else [])) None s'
      | MTypeError msg => mtype_error c2 n msg s'
      | MException msg => merror c2 ($ "Macro '" ++ n ++ $ "' error: " ++ msg) (Some (TrOther n msg)) s'
      | MBase => (Exc EMacroBase, s')
      end
    end in
  let r1 := if exists_in m n then
      let s' := mkest (toc s1) (log s1 ++ [(n, kw)]) in
      match u_call (as_dict m) (log s1) n kw with
      | MRet r => (Ok (blk r), s')
      | MNonStr d => (Ok (error c1 ($ "Macro '" ++ n ++ $ "' doesn't return a unicode string!" ++ (if (1 <? v)%Z then d else []))), s')
      | MTypeError msg => if (2 <? v)%Z then (Exc ETypeError, s') else (Ok (error c1 ($ "Macro '" ++ n ++ $ "' error: " ++ msg)), s')
      | MException msg => (Ok (error c1 ($ "Macro '" ++ n ++ $ "' error: " ++ msg)), s')
      | MBase => (Exc EMacroBase, s')
      end
    else (Ok (error c1 ($ "Macro '" ++ n ++ $ "' doesn't exist")), s1) in
  fst r2 = fst r1 /\ agree (snd r2) (snd r1).
Proof.
  intros n kw blk s2 s1 H. cbv zeta. unfold exists_in. cbn [as_dict u_call]. pose proof (proj1 (proj2 H)) as HL. rewrite <- HL.
  assert (CALL : callable_in m n = true -> forall o,
    fst (match o with MRet r => (Ok (blk r), mkmst (m_toc s2) (m_log s2 ++ [(n, kw)]) (m_err s2))
      | MNonStr d => merror c2 ($ "Macro '" ++ n ++ $ "' doesn't return a unicode string!" ++ (if (1 <? v)%Z then d else [])) None (mkmst (m_toc s2) (m_log s2 ++ [(n, kw)]) (m_err s2))
      | MTypeError msg => mtype_error c2 n msg (mkmst (m_toc s2) (m_log s2 ++ [(n, kw)]) (m_err s2))
      | MException msg => merror c2 ($ "Macro '" ++ n ++ $ "' error: " ++ msg) (Some (TrOther n msg)) (mkmst (m_toc s2) (m_log s2 ++ [(n, kw)]) (m_err s2))
      | MBase => (Exc EMacroBase, mkmst (m_toc s2) (m_log s2 ++ [(n, kw)]) (m_err s2)) end) =
    fst (match o with MRet r => (Ok (blk r), mkest (toc s1) (log s1 ++ [(n, kw)]))
      | MNonStr d => (Ok (error c1 ($ "Macro '" ++ n ++ $ "' doesn't return a unicode string!" ++ (if (1 <? v)%Z then d else []))), mkest (toc s1) (log s1 ++ [(n, kw)]))
      | MTypeError msg => if (2 <? v)%Z then (Exc ETypeError, mkest (toc s1) (log s1 ++ [(n, kw)])) else (Ok (error c1 ($ "Macro '" ++ n ++ $ "' error: " ++ msg)), mkest (toc s1) (log s1 ++ [(n, kw)]))
      | MException msg => (Ok (error c1 ($ "Macro '" ++ n ++ $ "' error: " ++ msg)), mkest (toc s1) (log s1 ++ [(n, kw)]))
      | MBase => (Exc EMacroBase, mkest (toc s1) (log s1 ++ [(n, kw)])) end) /\
    agree (snd (match o with MRet r => (Ok (blk r), mkmst (m_toc s2) (m_log s2 ++ [(n, kw)]) (m_err s2))
      | MNonStr d => merror c2 ($ "Macro '" ++ n ++ $ "' doesn't return a unicode string!" ++ (if (1 <? v)%Z then d else [])) None (mkmst (m_toc s2) (m_log s2 ++ [(n, kw)]) (m_err s2))
      | MTypeError msg => mtype_error c2 n msg (mkmst (m_toc s2) (m_log s2 ++ [(n, kw)]) (m_err s2))
      | MException msg => merror c2 ($ "Macro '" ++ n ++ $ "' error: " ++ msg) (Some (TrOther n msg)) (mkmst (m_toc s2) (m_log s2 ++ [(n, kw)]) (m_err s2))
      | MBase => (Exc EMacroBase, mkmst (m_toc s2) (m_log s2 ++ [(n, kw)]) (m_err s2)) end))
    (snd (match o with MRet r => (Ok (blk r), mkest (toc s1) (log s1 ++ [(n, kw)]))
      | MNonStr d => (Ok (error c1 ($ "Macro '" ++ n ++ $ "' doesn't return a unicode string!" ++ (if (1 <? v)%Z then d else []))), mkest (toc s1) (log s1 ++ [(n, kw)]))
      | MTypeError msg => if (2 <? v)%Z then (Exc ETypeError, mkest (toc s1) (log s1 ++ [(n, kw)])) else (Ok (error c1 ($ "Macro '" ++ n ++ $ "' error: " ++ msg)), mkest (toc s1) (log s1 ++ [(n, kw)]))
      | MException msg => (Ok (error c1 ($ "Macro '" ++ n ++ $ "' error: " ++ msg)), mkest (toc s1) (log s1 ++ [(n, kw)]))
      | MBase => (Exc EMacroBase, mkest (toc s1) (log s1 ++ [(n, kw)])) end))).
  { intros K o. pose proof (logged n kw s2 s1 H K) as G. destruct o as [r|d|msg|msg|].
    - split; [reflexivity|exact G].
    - apply merror_agree. exact G.
    - destruct (mtype_agree n msg _ _ G) as [E1 E2]. destruct (2 <? v)%Z; (split; [exact E1|exact E2]).
    - apply merror_agree. exact G.
    - split; [reflexivity|exact G]. }
  unfold callable_in in CALL. destruct (mv_get m n) as [[|cls| |t]|] eqn:E.
  - apply merror_agree. exact H.
  - assert (K : callable_in m n = false) by (unfold callable_in; rewrite E; reflexivity). destruct (mtype_agree n (cannot_call cls) s2 _ (unlogged n kw s2 s1 H K)) as [E1 E2]. unfold cannot_call in *. cbn [snd fst] in *. destruct (2 <? v)%Z; (split; [exact E1|exact E2]).
  - apply (CALL eq_refl).
  - apply (CALL eq_refl).
  - apply merror_agree. exact H.
Qed.
Lemma macro_agree : forall h s2 s1, agree s2 s1 -> fst (mmacro_emit c2 h s2) = fst (macro_emit c1 h s1) /\ agree (snd (mmacro_emit c2 h s2)) (snd (macro_emit c1 h s1)).
Proof.
  intros h s2 s1 H. unfold mmacro_emit, macro_emit. destruct (string2dict (hmargs h)) as [kw0|]; [|apply merror_agree; exact H]. cbv zeta.
  set (kw := dict_set _ _ kw0). set (blk := fun r => if kind_beq (hk h) KMacroBlock then r ++ [10] else r). unfold lookup. change (m_macros c2) with m. change (env c1) with (as_dict m). change (u_has (as_dict m)) with (exists_in m). change (verbose c1) with v. change (m_verbose c2) with v.
  pose proof (user_agree (hmname h) kw blk s2 s1 H) as U. cbv zeta in U.
  destruct (str_eqb (hmname h) ($ "toc")) eqn:T.
  2: { destruct (mv_get m (hmname h)) as [[|cls| |t]|]; exact U. }
  destruct H as (H1 & H2 & H3). rewrite H1 in U |- *.
  apply str_eqb_eq in T. destruct H3 as [H3|(t & H3)].
  - destruct (m_toc s2) as [[|cls| |t]|] eqn:M; cbn [as_toc] in U |- *; rewrite T in *; rewrite <- H3 in U; try exact U.
    clear U. destruct (dict_get ($ "self") kw) as [x|].
    + assert (G : agree s2 s1) by (split; [rewrite M; exact H1|]; split; [exact H2|]; left; rewrite M; exact H3).
      destruct (mtype_agree ($ "toc") ($ "TableOfContent.__call__() got multiple values for argument 'self'") s2 s1 G) as [E1 E2]. destruct (2 <? v)%Z; (split; [exact E1|exact E2]).
    + destruct (toc_call kw t) as [r t']. split; [reflexivity|]. split; [reflexivity|]. split; [exact H2|]. right. exists t'. reflexivity.
  - rewrite H3 in *. cbn [as_toc]. rewrite T. clear U. destruct (dict_get ($ "self") kw) as [x|].
    + assert (G : agree s2 s1) by (split; [rewrite H3; exact H1|]; split; [exact H2|]; right; exists t; exact H3).
      destruct (mtype_agree ($ "toc") ($ "TableOfContent.__call__() got multiple values for argument 'self'") s2 s1 G) as [E1 E2]. destruct (2 <? v)%Z; (split; [exact E1|exact E2]).
    + destruct (toc_call kw t) as [r t']. split; [reflexivity|]. split; [reflexivity|]. split; [exact H2|]. right. exists t'. reflexivity.
Qed.
Lemma head_agree : forall h t s2 s1, agree s2 s1 -> fst (mheader_emit c2 h t s2) = fst (header_emit c1 h t s1) /\ agree (snd (mheader_emit c2 h t s2)) (snd (header_emit c1 h t s1)).
Proof.
  intros h t s2 s1 H. unfold mheader_emit, header_emit. change (m_use_toc c2) with ut. change (use_toc c1) with ut. destruct ut; [|split; [reflexivity|exact H]].
  pose proof H as (H1 & H2 & H3). rewrite H1. destruct (m_toc s2) as [[|cls| |tc]|]; cbn [as_toc]; try (split; [reflexivity|exact H]).
  destruct (add_headline (hlevel h) t tc) as [t'|e]; [|split; [reflexivity|exact H]]. split; [reflexivity|]. split; [reflexivity|]. split; [exact H2|]. right. exists t'. reflexivity.
Qed.
Lemma emit_agree : forall root s2 s1, agree s2 s1 -> fst (memit c2 root s2) = fst (emit c1 root s1) /\ agree (snd (memit c2 root s2)) (snd (emit c1 root s1)).
Proof.
  intros root s2 s1 H. unfold memit, emit. destruct (both_node c2 c1 agree eq_refl macro_agree head_agree root (mkn KDocument None) s2 s1 H) as [E1 E2].
  destruct (memit_node c2 (mkn KDocument None) root s2) as [r2 s2'], (emit_node c1 (mkn KDocument None) root s1) as [r1 s1']. cbn [fst snd] in *. subst r1. destruct r2 as [a|e]; [|split; [reflexivity|exact E2]].
  change (m_use_toc c2) with ut. change (use_toc c1) with ut. destruct ut; [|split; [reflexivity|exact E2]]. pose proof E2 as (H1 & _). rewrite H1. destruct (m_toc s2') as [[|cls| |t]|]; cbn [as_toc]; (split; [reflexivity|exact E2]).
Qed.
End AsDict.

Theorem any_as_dict_if : forall o m before markup, toc_fits m \/ (forall root used, parse (o_blog o) markup = Some (root, used) -> existsb (str_eqb ($ "toc")) used = false) ->
  let r := mcreole2html o m (real_calls m before) markup in
  let r1 := creole2html o (mkmd (as_dict m) (as_toc (mv_get m ($ "toc"))) before) markup in
  fst r = fst r1 /\ as_toc (m_toc (snd r)) = md_toc (snd r1) /\ m_log (snd r) = real_calls m (md_log (snd r1)).
Proof.
  intros o m before markup F. cbv zeta. unfold mcreole2html, creole2html. cbn [md_env md_toc md_log]. destruct (parse (o_blog o) markup) as [[root used]|] eqn:PA; [|repeat split; reflexivity].
  set (v := match o_verbose o with None => 1%Z | Some v => v end).
  assert (K : exists ut t, minit_toc used m = Some (ut, t) /\ init_toc used (as_toc (mv_get m ($ "toc"))) = (ut, as_toc t) /\ (t = mv_get m ($ "toc") \/ exists x, t = Some (TocEntry x))).
  { unfold minit_toc, init_toc. destruct (existsb (str_eqb ($ "toc")) used) eqn:US; [|eexists; eexists; split; [reflexivity|]; split; [reflexivity|]; left; reflexivity].
    destruct F as [F|F]; [|rewrite (F _ _ eq_refl) in US; discriminate US]. unfold toc_fits in F. destruct (mv_get m ($ "toc")) as [[|cls| |t]|]; [destruct F|..]; try (eexists; eexists; split; [reflexivity|]; split; [reflexivity|]; left; reflexivity).
    destruct (mv_holder m) as [|[]]; [| |exfalso; apply F; reflexivity]; (eexists; eexists; split; [reflexivity|]; split; [reflexivity|]; right; eexists; reflexivity). }
  destruct K as (ut & t & -> & -> & T).
  destruct (emit_agree m v (o_strict o) ut root (mkmst t (real_calls m before) []) (mkest (as_toc t) before)) as [E1 (E2 & E3 & _)]; [split; [reflexivity|]; split; [reflexivity|exact T]|].
  destruct (emit (mkcfg v (o_strict o) (as_dict m) ut) root (mkest (as_toc t) before)) as [r1 s1]. cbn [fst snd md_toc md_log] in *. split; [exact E1|]. split; [symmetry; exact E2|exact E3].
Qed.

Theorem any_as_dict : forall o m before markup, toc_fits m ->
  let r := mcreole2html o m (real_calls m before) markup in
  let r1 := creole2html o (mkmd (as_dict m) (as_toc (mv_get m ($ "toc"))) before) markup in
  fst r = fst r1 /\ as_toc (m_toc (snd r)) = md_toc (snd r1) /\ m_log (snd r) = real_calls m (md_log (snd r1)).
Proof. intros o m before markup F. apply any_as_dict_if. left. exact F. Qed.

(** ** a dict of callables is one of these *)
Section OfDict.
Variables (d : mdict) (v : Z) (st ut : bool).
Hypothesis OK : dict_ok d.
Let m := of_dict d.
Let c2 := mkmcfg v st m ut.
Let c1 := mkcfg v st (md_env d) ut.
Definition twins (s2 : mst) (s1 : est) : Prop :=
  toc s1 = as_toc (m_toc s2) /\ m_log s2 = log s1 /\ (m_toc s2 = mv_get m ($ "toc") \/ exists t, m_toc s2 = Some (TocEntry t)).
Lemma merror_twins : forall text e s2 s1, twins s2 s1 -> fst (merror c2 text e s2) = Ok (error c1 text) /\ twins (snd (merror c2 text e s2)) s1.
Proof. intros text e s2 s1 H. split; [reflexivity|]. unfold merror. destruct e as [t|]; [|exact H]. cbn [snd]. destruct (1 <? m_verbose c2)%Z; [|exact H]. exact H. Qed.
Lemma mtype_twins : forall n msg s2 s1, twins s2 s1 ->
  fst (mtype_error c2 n msg s2) = fst (if (2 <? v)%Z then (@Exc str ETypeError, s1) else (Ok (error c1 ($ "Macro '" ++ n ++ $ "' error: " ++ msg)), s1)) /\
  twins (snd (mtype_error c2 n msg s2)) (snd (if (2 <? v)%Z then (@Exc str ETypeError, s1) else (Ok (error c1 ($ "Macro '" ++ n ++ $ "' error: " ++ msg)), s1))).
Proof. intros n msg s2 s1 H. unfold mtype_error. change (m_verbose c2) with v. destruct (2 <? v)%Z; [split; [reflexivity|exact H]|]. apply merror_twins. exact H. Qed.
Lemma call_twins : forall n kw blk s2 s1, twins s2 s1 ->
  let r2 := let s' := mkmst (m_toc s2) (m_log s2 ++ [(n, kw)]) (m_err s2) in
      match mv_call m (m_log s2) n kw with
      | MRet r => (Ok (blk r), s')
      | MNonStr d => merror c2 ($ "Macro '" ++ n ++ $ "' doesn't return a unicode string!" ++ (if (1 <? v)%Z then d else [])) None s'
      | MTypeError msg => mtype_error c2 n msg s'
      | MException msg => merror c2 ($ "Macro '" ++ n ++ $ "' error: " ++ msg) (Some (TrOther n msg)) s'
      | MBase => (Exc EMacroBase, s')
      end in
  let r1 := let s' := mkest (toc s1) (log s1 ++ [(n, kw)]) in
      match u_call (md_env d) (log s1) n kw with
      | MRet r => (Ok (blk r), s')
      | MNonStr d => (Ok (error c1 ($ "Macro '" ++ n ++ $ "' doesn't return a unicode string!" ++ (if (1 <? v)%Z then d else []))), s')
      | MTypeError msg => if (2 <? v)%Z then (Exc ETypeError, s') else (Ok (error c1 ($ "Macro '" ++ n ++ $ "' error: " ++ msg)), s')
      | MException msg => (Ok (error c1 ($ "Macro '" ++ n ++ $ "' error: " ++ msg)), s')
      | MBase => (Exc EMacroBase, s')
      end in
  fst r2 = fst r1 /\ twins (snd r2) (snd r1).
Proof.
  intros n kw blk s2 s1 (H1 & H2 & H3). cbv zeta. change (mv_call m) with (u_call (md_env d)). rewrite H2.
  assert (G : twins (mkmst (m_toc s2) (log s1 ++ [(n, kw)]) (m_err s2)) (mkest (toc s1) (log s1 ++ [(n, kw)]))) by (split; [exact H1|]; split; [reflexivity|exact H3]).
  destruct (u_call (md_env d) (log s1) n kw) as [r|x|msg|msg|]; [split; [reflexivity|exact G]|apply merror_twins; exact G|apply mtype_twins; exact G|apply merror_twins; exact G|split; [reflexivity|exact G]].
Qed.
Lemma macro_twins : forall h s2 s1, twins s2 s1 -> fst (mmacro_emit c2 h s2) = fst (macro_emit c1 h s1) /\ twins (snd (mmacro_emit c2 h s2)) (snd (macro_emit c1 h s1)).
Proof.
  intros h s2 s1 H. unfold mmacro_emit, macro_emit. destruct (string2dict (hmargs h)) as [kw0|]; [|apply merror_twins; exact H]. cbv zeta.
  set (kw := dict_set _ _ kw0). set (blk := fun r => if kind_beq (hk h) KMacroBlock then r ++ [10] else r). unfold lookup. change (m_macros c2) with m. change (env c1) with (md_env d). change (verbose c1) with v. change (m_verbose c2) with v.
  pose proof (call_twins (hmname h) kw blk s2 s1 H) as U. cbv zeta in U.
  destruct (str_eqb (hmname h) ($ "toc")) eqn:T.
  2: { replace (mv_get m (hmname h)) with (if u_has (md_env d) (hmname h) then Some CallEntry else None) by (unfold m, of_dict; cbn [mv_get]; rewrite T; reflexivity). destruct (u_has (md_env d) (hmname h)); [exact U|apply merror_twins; exact H]. }
  apply str_eqb_eq in T. rewrite T in *. pose proof H as (H1 & H2 & H3).
  assert (HU : u_has (md_env d) ($ "toc") = match md_toc d with TUser => true | _ => false end).
  { unfold dict_ok in OK. destruct (u_has (md_env d) ($ "toc")) eqn:E; [rewrite (proj2 OK eq_refl); reflexivity|]. destruct (md_toc d); try reflexivity. discriminate (proj1 OK eq_refl). }
  assert (TC : forall t, m_toc s2 = Some (TocEntry t) ->
    fst (match dict_get ($ "self") kw with Some _ => mtype_error c2 ($ "toc") ($ "TableOfContent.__call__() got multiple values for argument 'self'") s2 | None => let '(r, t') := toc_call kw t in (Ok (blk r), mkmst (Some (TocEntry t')) (m_log s2) (m_err s2)) end) =
    fst (match dict_get ($ "self") kw with Some _ => if (2 <? v)%Z then (Exc ETypeError, s1) else (Ok (error c1 ($ "Macro 'toc' error: TableOfContent.__call__() got multiple values for argument 'self'")), s1) | None => let '(r, t') := toc_call kw t in (Ok (blk r), mkest (TObj t') (log s1)) end) /\
    twins (snd (match dict_get ($ "self") kw with Some _ => mtype_error c2 ($ "toc") ($ "TableOfContent.__call__() got multiple values for argument 'self'") s2 | None => let '(r, t') := toc_call kw t in (Ok (blk r), mkmst (Some (TocEntry t')) (m_log s2) (m_err s2)) end))
    (snd (match dict_get ($ "self") kw with Some _ => if (2 <? v)%Z then (Exc ETypeError, s1) else (Ok (error c1 ($ "Macro 'toc' error: TableOfContent.__call__() got multiple values for argument 'self'")), s1) | None => let '(r, t') := toc_call kw t in (Ok (blk r), mkest (TObj t') (log s1)) end))).
  { intros t E. destruct (dict_get ($ "self") kw) as [x|]; [apply (mtype_twins ($ "toc") ($ "TableOfContent.__call__() got multiple values for argument 'self'") s2 s1 H)|]. destruct (toc_call kw t) as [r t']. split; [reflexivity|]. split; [reflexivity|]. split; [exact H2|]. right. exists t'. reflexivity. }
  rewrite H1. destruct H3 as [H3|(t & H3)].
  - change (mv_get m ($ "toc")) with (match md_toc d with TNone => None | TObj t => Some (TocEntry t) | TUser => Some CallEntry end) in H3.
    destruct (md_toc d) as [|t|]; rewrite H3; cbn [as_toc].
    + rewrite HU. apply merror_twins. exact H.
    + apply TC. exact H3.
    + rewrite HU. rewrite H1, H3 in U. exact U.
  - rewrite H3. cbn [as_toc]. apply TC. exact H3.
Qed.
Lemma head_twins : forall h t s2 s1, twins s2 s1 -> fst (mheader_emit c2 h t s2) = fst (header_emit c1 h t s1) /\ twins (snd (mheader_emit c2 h t s2)) (snd (header_emit c1 h t s1)).
Proof.
  intros h t s2 s1 H. unfold mheader_emit, header_emit. change (m_use_toc c2) with ut. change (use_toc c1) with ut. destruct ut; [|split; [reflexivity|exact H]].
  pose proof H as (H1 & H2 & H3). rewrite H1. destruct (m_toc s2) as [[|cls| |tc]|]; cbn [as_toc]; try (split; [reflexivity|exact H]).
  destruct (add_headline (hlevel h) t tc) as [t'|e]; [|split; [reflexivity|exact H]]. split; [reflexivity|]. split; [reflexivity|]. split; [exact H2|]. right. exists t'. reflexivity.
Qed.
Lemma emit_twins : forall root s2 s1, twins s2 s1 -> fst (memit c2 root s2) = fst (emit c1 root s1) /\ twins (snd (memit c2 root s2)) (snd (emit c1 root s1)).
Proof.
  intros root s2 s1 H. unfold memit, emit. destruct (both_node c2 c1 twins eq_refl macro_twins head_twins root (mkn KDocument None) s2 s1 H) as [E1 E2].
  destruct (memit_node c2 (mkn KDocument None) root s2) as [r2 s2'], (emit_node c1 (mkn KDocument None) root s1) as [r1 s1']. cbn [fst snd] in *. subst r1. destruct r2 as [a|e]; [|split; [reflexivity|exact E2]].
  change (m_use_toc c2) with ut. change (use_toc c1) with ut. destruct ut; [|split; [reflexivity|exact E2]]. pose proof E2 as (H1 & _). rewrite H1. destruct (m_toc s2') as [[|cls| |t]|]; cbn [as_toc]; (split; [reflexivity|exact E2]).
Qed.
End OfDict.
Theorem dict_is_any : forall o d markup, dict_ok d ->
  let r := mcreole2html o (of_dict d) (md_log d) markup in
  let r1 := creole2html o d markup in
  fst r = fst r1 /\ as_toc (m_toc (snd r)) = md_toc (snd r1) /\ m_log (snd r) = md_log (snd r1).
Proof.
  intros o d markup F. cbv zeta. unfold mcreole2html, creole2html. destruct (parse (o_blog o) markup) as [[root used]|]; [|cbn [fst snd m_toc m_log of_dict mv_get]; destruct (md_toc d); repeat split; reflexivity].
  set (v := match o_verbose o with None => 1%Z | Some v => v end).
  assert (K : exists ut t, minit_toc used (of_dict d) = Some (ut, t) /\ init_toc used (md_toc d) = (ut, as_toc t) /\ (t = mv_get (of_dict d) ($ "toc") \/ exists x, t = Some (TocEntry x))).
  { unfold minit_toc, init_toc. change (mv_get (of_dict d) ($ "toc")) with (match md_toc d with TNone => None | TObj t => Some (TocEntry t) | TUser => Some CallEntry end).
    destruct (existsb (str_eqb ($ "toc")) used); destruct (md_toc d); eexists; eexists; (split; [reflexivity|]); (split; [reflexivity|]); try (left; reflexivity); right; eexists; reflexivity. }
  destruct K as (ut & t & -> & -> & T).
  destruct (emit_twins d v (o_strict o) ut F root (mkmst t (md_log d) []) (mkest (as_toc t) (md_log d))) as [E1 (E2 & E3 & _)]; [split; [reflexivity|]; split; [reflexivity|exact T]|].
  destruct (emit (mkcfg v (o_strict o) (md_env d) ut) root (mkest (as_toc t) (md_log d))) as [r1 s1]. cbn [fst snd md_toc md_log] in *. split; [exact E1|]. split; [symmetry; exact E2|exact E3].
Qed.

(** ** a dict and an object, None and nothing *)
Section Kinds.
Variables (m1 m2 : mval) (v : Z) (st ut : bool) (f : list trace -> list trace).
Let c1 := mkmcfg v st m1 ut.
Let c2 := mkmcfg v st m2 ut.
Hypothesis FA : forall a b, f (a ++ b) = f a ++ f b.
Hypothesis F1 : forall x, f [TrValue x] = [TrValue x].
Hypothesis F2 : forall n x, f [TrType n x] = [TrType n x].
Hypothesis F3 : forall n x, f [TrOther n x] = [TrOther n x].
Hypothesis CALL : mv_call m1 = mv_call m2.
(** found alike, or both nothing *)
Definition missing (m : mval) (n : str) : list trace := match mv_get m n with None => [match mv_holder m with InDict => TrKey n | InObject _ => TrAttr n end] | _ => [] end.
Hypothesis GET : forall n, mv_get m1 n = mv_get m2 n /\ mv_get m1 n <> None \/ exists_in m1 n = false /\ exists_in m2 n = false /\ f (missing m1 n) = missing m2 n.
Hypothesis TOC : mv_get m1 ($ "toc") = mv_get m2 ($ "toc").
Definition kin (s1 s2 : mst) : Prop := m_toc s1 = m_toc s2 /\ m_log s1 = m_log s2 /\ f (m_err s1) = m_err s2 /\ (m_toc s1 = mv_get m1 ($ "toc") \/ exists t, m_toc s1 = Some (TocEntry t)).
Definition opt_list (e : option trace) : list trace := match e with Some t => [t] | None => [] end.
Lemma f_nil : f [] = [].
Proof. pose proof (FA [] []) as H. cbn [app] in H. destruct (f []) as [|x l]; [reflexivity|]. apply (f_equal (@List.length trace)) in H. rewrite app_length in H. cbn [List.length] in H. lia. Qed.
Lemma merror_kin : forall text e1 e2 s1 s2, kin s1 s2 -> f (opt_list e1) = opt_list e2 -> fst (merror c1 text e1 s1) = fst (merror c2 text e2 s2) /\ kin (snd (merror c1 text e1 s1)) (snd (merror c2 text e2 s2)).
Proof.
  intros text e1 e2 s1 s2 (H1 & H2 & H3 & H4) E. split; [reflexivity|]. unfold merror. cbn [snd]. change (m_verbose c1) with v. change (m_verbose c2) with v.
  destruct (1 <? v)%Z; [|destruct e1, e2; (split; [exact H1|]; split; [exact H2|]; split; [exact H3|exact H4])].
  destruct e1 as [t1|], e2 as [t2|]; cbn [opt_list] in E.
  - split; [exact H1|]. split; [exact H2|]. split; [|exact H4]. cbn [m_err]. rewrite FA, E, H3. reflexivity.
  - split; [exact H1|]. split; [exact H2|]. split; [|exact H4]. cbn [m_err]. rewrite FA, E, H3. apply app_nil_r.
  - rewrite f_nil in E. discriminate E.
  - split; [exact H1|]. split; [exact H2|]. split; [exact H3|exact H4].
Qed.
Lemma mtype_kin : forall n msg s1 s2, kin s1 s2 -> fst (mtype_error c1 n msg s1) = fst (mtype_error c2 n msg s2) /\ kin (snd (mtype_error c1 n msg s1)) (snd (mtype_error c2 n msg s2)).
Proof. intros n msg s1 s2 H. unfold mtype_error. change (m_verbose c1) with v. change (m_verbose c2) with v. destruct (2 <? v)%Z; [split; [reflexivity|exact H]|]. apply merror_kin; [exact H|apply F2]. Qed.
Lemma macro_kin : forall h s1 s2, kin s1 s2 -> fst (mmacro_emit c1 h s1) = fst (mmacro_emit c2 h s2) /\ kin (snd (mmacro_emit c1 h s1)) (snd (mmacro_emit c2 h s2)).
Proof.
  intros h s1 s2 H. unfold mmacro_emit. destruct (string2dict (hmargs h)) as [kw0|]; [|apply merror_kin; [exact H|apply F1]]. cbv zeta.
  set (kw := dict_set _ _ kw0). unfold lookup. change (m_macros c1) with m1. change (m_macros c2) with m2. change (m_verbose c1) with v. change (m_verbose c2) with v. pose proof H as (H1 & H2 & H3 & H4). rewrite CALL, H2.
  assert (G : kin (mkmst (m_toc s1) (m_log s2 ++ [(hmname h, kw)]) (m_err s1)) (mkmst (m_toc s2) (m_log s2 ++ [(hmname h, kw)]) (m_err s2))) by (split; [exact H1|]; split; [reflexivity|]; split; [exact H3|exact H4]).
  assert (LOST : forall x1 x2, x1 = None \/ x1 = Some VoidEntry -> x2 = None \/ x2 = Some VoidEntry ->
    f (match x1 with None => [match mv_holder m1 with InDict => TrKey (hmname h) | InObject _ => TrAttr (hmname h) end] | _ => [] end) =
      match x2 with None => [match mv_holder m2 with InDict => TrKey (hmname h) | InObject _ => TrAttr (hmname h) end] | _ => [] end ->
    fst (match x1 with None => merror c1 ($ "Macro '" ++ hmname h ++ $ "' doesn't exist") (Some (match mv_holder m1 with InDict => TrKey (hmname h) | InObject _ => TrAttr (hmname h) end)) s1 | _ => merror c1 ($ "Macro '" ++ hmname h ++ $ "' doesn't exist") None s1 end) =
    fst (match x2 with None => merror c2 ($ "Macro '" ++ hmname h ++ $ "' doesn't exist") (Some (match mv_holder m2 with InDict => TrKey (hmname h) | InObject _ => TrAttr (hmname h) end)) s2 | _ => merror c2 ($ "Macro '" ++ hmname h ++ $ "' doesn't exist") None s2 end) /\
    kin (snd (match x1 with None => merror c1 ($ "Macro '" ++ hmname h ++ $ "' doesn't exist") (Some (match mv_holder m1 with InDict => TrKey (hmname h) | InObject _ => TrAttr (hmname h) end)) s1 | _ => merror c1 ($ "Macro '" ++ hmname h ++ $ "' doesn't exist") None s1 end))
    (snd (match x2 with None => merror c2 ($ "Macro '" ++ hmname h ++ $ "' doesn't exist") (Some (match mv_holder m2 with InDict => TrKey (hmname h) | InObject _ => TrAttr (hmname h) end)) s2 | _ => merror c2 ($ "Macro '" ++ hmname h ++ $ "' doesn't exist") None s2 end))).
  { intros x1 x2 [->| ->] [->| ->] E; apply merror_kin; try exact H; exact E. }
  destruct (str_eqb (hmname h) ($ "toc")) eqn:T.
  - rewrite <- H1. destruct (m_toc s1) as [[|cls| |t]|] eqn:M.
    + apply merror_kin; [exact H|apply f_nil].
    + apply mtype_kin; exact H.
    + rewrite <- H1 in G. destruct (mv_call m2 (m_log s2) (hmname h) kw) as [r|x|msg|msg|]; [split; [reflexivity|exact G]|apply merror_kin; [exact G|apply f_nil]|apply mtype_kin; exact G|apply merror_kin; [exact G|apply F3]|split; [reflexivity|exact G]].
    + destruct (dict_get ($ "self") kw) as [x|]; [apply mtype_kin; exact H|]. destruct (toc_call kw t) as [r t']. split; [reflexivity|]. split; [reflexivity|]. split; [cbn [m_log]; reflexivity|]. split; [exact H3|]. right. exists t'. reflexivity.
    + destruct H4 as [H4|(t & H4)]; [|discriminate H4]. apply str_eqb_eq in T. destruct (GET ($ "toc")) as [[_ X]|(X1 & X2 & X3)]; [congruence|].
      apply merror_kin; [exact H|]. unfold missing in X3. rewrite <- TOC, <- H4 in X3. cbn [opt_list]. rewrite T. exact X3.
  - destruct (GET (hmname h)) as [[E N]|(X1 & X2 & X3)].
    + rewrite E. destruct (mv_get m2 (hmname h)) as [[|cls| |t]|] eqn:M; [apply merror_kin; [exact H|apply f_nil]|apply mtype_kin; exact H| | |rewrite E in N; contradiction].
      * destruct (mv_call m2 (m_log s2) (hmname h) kw) as [r|x|msg|msg|]; [split; [reflexivity|exact G]|apply merror_kin; [exact G|apply f_nil]|apply mtype_kin; exact G|apply merror_kin; [exact G|apply F3]|split; [reflexivity|exact G]].
      * destruct (mv_call m2 (m_log s2) (hmname h) kw) as [r|x|msg|msg|]; [split; [reflexivity|exact G]|apply merror_kin; [exact G|apply f_nil]|apply mtype_kin; exact G|apply merror_kin; [exact G|apply F3]|split; [reflexivity|exact G]].
    + unfold missing, exists_in in *. destruct (mv_get m1 (hmname h)) as [[|cls| |t]|]; try discriminate X1; destruct (mv_get m2 (hmname h)) as [[|cls2| |t2]|]; try discriminate X2.
      * exact (LOST (Some VoidEntry) (Some VoidEntry) (or_intror eq_refl) (or_intror eq_refl) X3).
      * exact (LOST (Some VoidEntry) None (or_intror eq_refl) (or_introl eq_refl) X3).
      * exact (LOST None (Some VoidEntry) (or_introl eq_refl) (or_intror eq_refl) X3).
      * exact (LOST None None (or_introl eq_refl) (or_introl eq_refl) X3).
Qed.
Lemma head_kin : forall h t s1 s2, kin s1 s2 -> fst (mheader_emit c1 h t s1) = fst (mheader_emit c2 h t s2) /\ kin (snd (mheader_emit c1 h t s1)) (snd (mheader_emit c2 h t s2)).
Proof.
  intros h t s1 s2 H. unfold mheader_emit. change (m_use_toc c2) with ut. change (m_use_toc c1) with ut. destruct ut; [|split; [reflexivity|exact H]].
  pose proof H as (H1 & H2 & H3 & H4). rewrite <- H1. destruct (m_toc s1) as [[|cls| |tc]|] eqn:M; try (split; [reflexivity|exact H]).
  destruct (add_headline (hlevel h) t tc) as [t'|e]; [|split; [reflexivity|exact H]]. split; [reflexivity|]. split; [reflexivity|]. split; [exact H2|]. split; [exact H3|]. right. exists t'. reflexivity.
Qed.
Lemma emit_kin : forall root s1 s2, kin s1 s2 -> fst (memit c1 root s1) = fst (memit c2 root s2) /\ kin (snd (memit c1 root s1)) (snd (memit c2 root s2)).
Proof.
  intros root s1 s2 H. unfold memit. destruct (two_node c1 c2 kin eq_refl macro_kin head_kin root (mkn KDocument None) s1 s2 H) as [E1 E2].
  destruct (memit_node c1 (mkn KDocument None) root s1) as [r1 s1'], (memit_node c2 (mkn KDocument None) root s2) as [r2 s2']. cbn [fst snd] in *. subst r2. destruct r1 as [a|e]; [|split; [reflexivity|exact E2]].
  change (m_use_toc c2) with ut. change (m_use_toc c1) with ut. destruct ut; [|split; [reflexivity|exact E2]]. pose proof E2 as (H1 & _). rewrite <- H1. destruct (m_toc s1') as [[|cls| |t]|]; (split; [reflexivity|exact E2]).
Qed.
End Kinds.
Theorem kinds : forall m1 m2 f o before markup, (forall a b, f (a ++ b) = f a ++ f b) -> (forall x, f [TrValue x] = [TrValue x]) -> (forall n x, f [TrType n x] = [TrType n x]) -> (forall n x, f [TrOther n x] = [TrOther n x]) ->
  mv_call m1 = mv_call m2 -> (forall n, mv_get m1 n = mv_get m2 n /\ mv_get m1 n <> None \/ exists_in m1 n = false /\ exists_in m2 n = false /\ f (missing m1 n) = missing m2 n) ->
  mv_get m1 ($ "toc") = mv_get m2 ($ "toc") -> (mv_holder m1 = InObject false <-> mv_holder m2 = InObject false) ->
  let r1 := mcreole2html o m1 before markup in let r2 := mcreole2html o m2 before markup in
  fst r1 = fst r2 /\ m_toc (snd r1) = m_toc (snd r2) /\ m_log (snd r1) = m_log (snd r2) /\ f (m_err (snd r1)) = m_err (snd r2).
Proof.
  intros m1 m2 f o before markup FA F1 F2 F3 CALL GET TOC HO. cbv zeta. pose proof (f_nil f FA) as FN. unfold mcreole2html. destruct (parse (o_blog o) markup) as [[root used]|]; [|rewrite TOC; repeat split; exact FN].
  assert (I : minit_toc used m1 = minit_toc used m2).
  { unfold minit_toc. rewrite TOC. destruct (existsb (str_eqb ($ "toc")) used); [|reflexivity]. destruct (mv_get m2 ($ "toc")) as [[]|]; try reflexivity. destruct (mv_holder m1) as [|[]], (mv_holder m2) as [|[]]; try reflexivity; first [discriminate (proj1 HO eq_refl)|discriminate (proj2 HO eq_refl)]. }
  rewrite I. destruct (minit_toc used m2) as [[ut t]|] eqn:E; [|repeat split; exact FN].
  destruct (emit_kin m1 m2 (match o_verbose o with None => 1%Z | Some v => v end) (o_strict o) ut f FA F1 F2 F3 CALL GET TOC root (mkmst t before []) (mkmst t before [])) as [E1 (E2 & E3 & E4 & _)].
  { split; [reflexivity|]. split; [reflexivity|]. split; [exact FN|]. cbn [m_toc]. unfold minit_toc in I, E. rewrite TOC. destruct (existsb (str_eqb ($ "toc")) used); [|injection E as _ <-; left; reflexivity].
    destruct (mv_get m2 ($ "toc")) as [[]|]; try (injection E as _ <-; left; reflexivity). destruct (mv_holder m2) as [|[]]; try discriminate E; injection E as _ <-; right; eexists; reflexivity. }
  repeat split; assumption.
Qed.
Theorem object_as_dict : forall o m before markup, mv_holder m = InDict ->
  let r1 := mcreole2html o m before markup in let r2 := mcreole2html o (in_object m) before markup in
  fst r1 = fst r2 /\ m_toc (snd r1) = m_toc (snd r2) /\ m_log (snd r1) = m_log (snd r2) /\ map as_attribute (m_err (snd r1)) = m_err (snd r2).
Proof.
  intros o m before markup HD. apply kinds; try reflexivity; [apply map_app| |split; [rewrite HD; discriminate|discriminate]].
  intro n. change (mv_get (in_object m) n) with (mv_get m n). destruct (mv_get m n) as [e|] eqn:E; [left; split; [reflexivity|discriminate]|]. right. unfold exists_in, missing. change (mv_get (in_object m) n) with (mv_get m n). rewrite E, HD. repeat split.
Qed.
Theorem none_is_missing : forall o m n before markup, n <> $ "toc" ->
  let r1 := mcreole2html o (with_entry n None m) before markup in let r2 := mcreole2html o (with_entry n (Some VoidEntry) m) before markup in
  fst r1 = fst r2 /\ m_toc (snd r1) = m_toc (snd r2) /\ m_log (snd r1) = m_log (snd r2) /\ filter (fun t => negb (about n t)) (m_err (snd r1)) = m_err (snd r2).
Proof.
  intros o m n before markup HN. apply kinds; try reflexivity.
  - intros. apply filter_app.
  - intro k. unfold with_entry, exists_in, missing. cbn [mv_get mv_holder]. destruct (str_eqb k n) eqn:E.
    + right. split; [reflexivity|]. split; [reflexivity|]. cbn [filter]. destruct (mv_holder m); cbn [about]; rewrite E; reflexivity.
    + destruct (mv_get m k) as [e|]; [left; split; [reflexivity|discriminate]|]. right. split; [reflexivity|]. split; [reflexivity|]. cbn [filter]. destruct (mv_holder m); cbn [about]; rewrite E; reflexivity.
  - unfold with_entry. cbn [mv_get]. destruct (str_eqb ($ "toc") n) eqn:E; [|reflexivity]. apply str_eqb_eq in E. congruence.
Qed.
